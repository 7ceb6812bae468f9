(** Proofs about what kanaConvert writes. *)
From Verif Require Import BaseFacts ArgsProofs ConverterWhole KanaRomajiProofs ProgramModel ProgramSpec ProgramProofs.
Open Scope N_scope.
Arguments N.mul : simpl never. Arguments N.add : simpl never. Arguments N.sub : simpl never.
Arguments N.lor : simpl never. Arguments N.eqb : simpl never.

(** ** texts *)
Lemma bind_value : forall A B w x (k : A -> W B), wbind (w, Val x) k = (w ++ fst (k x), snd (k x)).
Proof. intros. cbn [wbind]. destruct (k x); reflexivity. Qed.
Lemma converted_iff : forall ltr v s o, converted ltr v s o <-> convertText ltr v s = Val o.
Proof. intros ltr v s o. unfold converted, convertText. destruct (cSource v); reflexivity. Qed.
Lemma converted_total : forall ltr v s, bytes_ok s -> exists o, converted ltr v s o.
Proof.
  intros ltr v s H. unfold converted. destruct (cSource v) as [t|].
  - destruct (from_total (cTarget v) (cFlags v) ltr t s H) as [o [E _]]. eauto.
  - apply convert_total. exact H.
Qed.
Lemma remove_spaces_bit : forall f, hasFlag f FlagRemoveSpaces = N.testbit f 3.
Proof.
  intro f. unfold hasFlag, FlagRemoveSpaces. change 8 with (2 ^ 3). 
  assert (E : N.land f (2 ^ 3) = if N.testbit f 3 then 2 ^ 3 else 0).
  { apply N.bits_inj. intro n. rewrite N.land_spec, N.pow2_bits_eqb. destruct (N.eqb_spec 3 n) as [<-|Hn].
    - rewrite andb_true_r. destruct (N.testbit f 3); [rewrite N.pow2_bits_true; reflexivity|rewrite N.bits_0; reflexivity].
    - rewrite andb_false_r. destruct (N.testbit f 3); [rewrite N.pow2_bits_false by exact Hn; reflexivity|rewrite N.bits_0; reflexivity]. }
  rewrite E. destruct (N.testbit f 3); reflexivity.
Qed.
Lemma say_text : forall ltr v s o, converted ltr v s o -> sayText ltr v s = (o, Val tt).
Proof. intros ltr v s o H. apply converted_iff in H. unfold sayText. rewrite H. reflexivity. Qed.
Definition spaced (v : Conv) : bool := negb (ctEqb (cTarget v) Romaji) && negb (hasFlag (cFlags v) FlagRemoveSpaces).
Lemma separator_spaced : forall v, separator v = if spaced v then b_ "　" else [].
Proof.
  intro v. unfold separator, spaced. rewrite remove_spaces_bit. destruct (cTarget v); cbn [ctEqb negb andb]; try reflexivity; destruct (N.testbit (cFlags v) 3); reflexivity.
Qed.
Lemma say_more : forall ltr v l outs, Forall2 (converted ltr v) l outs ->
  sayStrings ltr v (spaced v) l = (flat_map (fun o => separator v ++ o) outs, Val tt).
Proof.
  intros ltr v l outs H. induction H as [|s o l outs H1 H2 IH]; [reflexivity|]. cbn [sayStrings flat_map].
  rewrite (say_text _ _ _ _ H1), (separator_spaced v). fold (spaced v). destruct (spaced v) eqn:E.
  - replace (ctEqb (cTarget v) Romaji) with false by (unfold spaced in E; destruct (ctEqb (cTarget v) Romaji); [discriminate|reflexivity]).
    unfold wbind, say. rewrite IH. rewrite (separator_spaced v), E, <- app_assoc. reflexivity.
  - unfold wbind, wret. rewrite IH. rewrite (separator_spaced v), E. reflexivity.
Qed.
Lemma say_strings : forall ltr v l outs, Forall2 (converted ltr v) l outs ->
  startStrings ltr v l = (separated (separator v) outs ++ [10], Val tt).
Proof.
  intros ltr v l outs H. unfold startStrings.
  assert (E : sayStrings ltr v false l = (separated (separator v) outs, Val tt)).
  { destruct H as [|s o l outs H1 H2]; [reflexivity|]. cbn [sayStrings]. rewrite (say_text _ _ _ _ H1).
    change (negb (ctEqb (cTarget v) Romaji) && negb (hasFlag (cFlags v) FlagRemoveSpaces)) with (spaced v).
    rewrite (say_more _ _ _ _ H2). cbn [wbind wret app]. f_equal. clear. revert o. induction outs as [|x outs IH]; intro o.
    - cbn [flat_map separated]. apply app_nil_r.
    - cbn [flat_map]. change (separated (separator v) (o :: x :: outs)) with (o ++ separator v ++ separated (separator v) (x :: outs)).
      rewrite <- IH. rewrite <- app_assoc. reflexivity. }
  rewrite E. reflexivity.
Qed.

(** ** lines *)
Lemma some_lines : forall s, exists ls, lines s ls.
Proof.
  assert (K : forall n s, (length s <= n)%nat -> exists ls, lines s ls).
  { induction n as [|n IH]; intros s H.
    - destruct s; [exists []; constructor|cbn in H; lia].
    - destruct s as [|c s]; [exists []; constructor|]. destruct (in_dec N.eq_dec 10 (c :: s)) as [I1|I1].
      + assert (P : exists a b, c :: s = a ++ 10 :: b /\ ~ In 10 a).
        { clear - I1. induction (c :: s) as [|x r IH]; [destruct I1|]. destruct (N.eq_dec x 10) as [->|Nx].
          - exists [], r. split; [reflexivity|intros []].
          - destruct IH as (a & b & -> & Ha); [destruct I1; [congruence|assumption]|]. exists (x :: a), b. split; [reflexivity|].
            intros [K|K]; [congruence|contradiction]. }
        destruct P as (a & b & E & Ha). rewrite E in *. rewrite app_length in H. cbn [length] in H.
        destruct (IH b ltac:(lia)) as [ls Hls]. exists (a :: ls). constructor; assumption.
      + exists [c :: s]. constructor; [discriminate|exact I1]. }
  intro s. exact (K (length s) s (le_n _)).
Qed.
Lemma lines_ok : forall s ls, lines s ls -> bytes_ok s -> Forall bytes_ok ls.
Proof.
  intros s ls H. induction H as [|l A B|l s ls A H IH]; intro K; [constructor|constructor; [exact K|constructor]|].
  apply bytes_ok_app in K. destruct K as [K1 K2]. constructor; [exact K1|]. apply IH. inversion K2; assumption.
Qed.
Lemma split_lf : forall l s, ~ In 10 l -> splitLine (l ++ 10 :: s) = (l, Some s).
Proof.
  induction l as [|c l IH]; intros s H; [reflexivity|]. cbn [app splitLine]. 
  replace (c =? 10) with false by (symmetry; apply N.eqb_neq; intro; subst; apply H; left; reflexivity).
  rewrite IH; [reflexivity|]. intro K. apply H. right. exact K.
Qed.
Lemma split_none : forall l, ~ In 10 l -> splitLine l = (l, None).
Proof.
  induction l as [|c l IH]; intro H; [reflexivity|]. cbn [splitLine].
  replace (c =? 10) with false by (symmetry; apply N.eqb_neq; intro; subst; apply H; left; reflexivity).
  rewrite IH; [reflexivity|]. intro K. apply H. right. exact K.
Qed.
(** the lines that a stream has left *)
Definition holds (i : istream) (ls : list bytes) : Prop :=
  (inEof i = true /\ ls = []) \/ (inEof i = false /\ lines (inRest i) ls).
Lemma holds_cons : forall i l ls, holds i (l :: ls) ->
  getlineOk i = true /\ exists i', (forall x, getline i x = (l, i')) /\ holds i' ls.
Proof.
  intros i l ls [[_ H]|[E H]]; [discriminate|]. unfold getlineOk, getline. rewrite E. inversion H as [|? A B|? s ? A B X Y]; subst.
  - split; [destruct (inRest i) as [|c r]; [congruence|]; rewrite len_cons; cbn; replace (1 + len r =? 0) with false by lia; reflexivity|].
    exists (MkIn [] true). split; [intro x; rewrite split_none by assumption; reflexivity|]. left. auto.
  - split; [rewrite len_app, len_cons; replace (len l + (1 + len s) =? 0) with false by lia; reflexivity|].
    exists (MkIn s false). split; [intro x; rewrite split_lf by assumption; reflexivity|]. right. auto.
Qed.
Lemma holds_nil : forall i, holds i [] -> getlineOk i = false /\ exists i', holds i' []
  /\ (forall x, getline i x = (x, i') \/ getline i x = ([], i')).
Proof.
  intros i [[E _]|[E H]]; unfold getlineOk, getline; rewrite E.
  - split; [reflexivity|]. exists i. split; [left; auto|]. intro x. left. reflexivity.
  - inversion H as [K| |]. split; [reflexivity|]. exists (MkIn [] true). split; [left; auto|]. intro x. right. reflexivity.
Qed.

(** ** the prompt for a flag *)
Lemma has_flag_key : forall c, hasKey c flagChoices = true <-> exists n, flag_letter c n.
Proof.
  intro c. unfold hasKey, flagChoices. cbn [existsb fst]. rewrite !orb_true_iff, !N.eqb_eq. split.
  - intros [H|[H|[H|[H|H]]]]; try discriminate; subst; eexists; constructor.
  - intros [n H]. destruct H; auto.
Qed.
Lemma flag_prepared : prepare None flagMessage true flagChoices None = Val (flagChoices, flag_prompt).
Proof. vm_compute. reflexivity. Qed.
Lemma other_loops : forall fuel p line i written, ~ answers_flag line ->
  forall f, fuel = S f -> forall l i', getline i line = (l, i') -> ~ answers_flag l ->
  askLoop fuel flagChoices None p line i written = askLoop f flagChoices None p l i' (written ++ p).
Proof.
  intros fuel p line i written _ f -> l i' G Hl. cbn [askLoop]. rewrite G. destruct l as [|c [|? ?]]; [reflexivity| |reflexivity].
  destruct (hasKey c flagChoices) eqn:K; [|reflexivity]. exfalso. apply Hl. apply has_flag_key in K. destruct K as [n K]. exists c, n. auto.
Qed.
Lemma ask_flag : forall others fuel p line i written c n r, Forall (fun s => ~ answers_flag s) others -> flag_letter c n ->
  ~ answers_flag line -> holds i (others ++ [c] :: r) -> (length others < fuel)%nat ->
  exists i', askLoop fuel flagChoices None p line i written = Val (c, i', written ++ concat (repeat p (S (length others)))) /\ holds i' r.
Proof.
  induction others as [|s others IH]; intros fuel p line i written c n r F L Hl H Hf; (destruct fuel as [|fuel]; [cbn in Hf; lia|]).
  - cbn [app] in H. destruct (holds_cons _ _ _ H) as (_ & i' & G & H'). exists i'. split; [|exact H'].
    cbn [askLoop]. rewrite G. replace (hasKey c flagChoices) with true by (symmetry; apply has_flag_key; eauto).
    cbn [length repeat concat]. rewrite app_nil_r. reflexivity.
  - cbn [app] in H. destruct (holds_cons _ _ _ H) as (_ & i' & G & H'). apply Forall_cons_iff in F. destruct F as [F1 F2].
    rewrite (other_loops (S fuel) p line i written Hl fuel eq_refl s i' (G line) F1).
    destruct (IH fuel p s i' (written ++ p) c n r F2 L F1 H') as (i'' & E & H''); [cbn in Hf; lia|].
    exists i''. split; [|exact H'']. rewrite E. cbn [length]. change (repeat p (S (S (length others)))) with (p :: repeat p (S (length others))).
    cbn [concat]. rewrite <- app_assoc. reflexivity.
Qed.
Lemma ask_waits : forall fuel others p line i written, Forall (fun s => ~ answers_flag s) others -> ~ answers_flag line ->
  holds i others -> askLoop fuel flagChoices None p line i written = Fuel.
Proof.
  assert (N0 : ~ answers_flag []) by (intros (c & n & E & _); discriminate).
  induction fuel as [|fuel IH]; intros others p line i written F Hl H; [reflexivity|]. destruct others as [|s others].
  - destruct (holds_nil _ H) as (_ & i' & H' & G). destruct (G line) as [G1|G1].
    + rewrite (other_loops (S fuel) p line i written Hl fuel eq_refl line i' G1 Hl). apply IH with []; assumption.
    + rewrite (other_loops (S fuel) p line i written Hl fuel eq_refl [] i' G1 N0). apply IH with []; assumption.
  - destruct (holds_cons _ _ _ H) as (_ & i' & G & H'). apply Forall_cons_iff in F. destruct F as [F1 F2].
    rewrite (other_loops (S fuel) p line i written Hl fuel eq_refl s i' (G line) F1). apply IH with others; assumption.
Qed.

(** ** steps *)
Lemma options_text : forall v, optionsText v = options_shown v.
Proof.
  intro v. unfold optionsText, options_shown. rewrite flag_text.
  assert (E1 : match cSource v with Some t => typeName t | None => b_ "any" end
    = match cSource v with None => b_ "any" | Some Hiragana => b_ "Hiragana" | Some Katakana => b_ "Katakana" | Some Romaji => b_ "Romaji" end)
    by (destruct (cSource v) as [[]|]; reflexivity).
  apply (f_equal (app (b_ ">>> current options: source="))). apply f_equal2; [exact E1|].
  reflexivity.
Qed.
Lemma setbit_lor : forall f n, N.lor f (2 ^ n) = N.setbit f n.
Proof. intros f n. rewrite N.setbit_spec'. reflexivity. Qed.
Lemma flag_letter_args : forall v c n, flag_letter c n ->
  flagArgs v c = Some (MkConv (cSource v) (cTarget v) (N.setbit (cFlags v) n)).
Proof. intros v c n H. rewrite <- setbit_lor. destruct H; reflexivity. Qed.

Definition then_loop (ltr interactive newline : bool) (fuel : nat) (w : bytes) (v : Conv) (i : istream) : W unit :=
  let r := inputLoop ltr fuel interactive (negb newline) v i in (w ++ fst r, snd r).
Lemma not_q : forall c s, c <> 113 -> beq (c :: s) (b_ "q") = false.
Proof. intros c s H. change (b_ "q") with [113]. apply beq_neq. congruence. Qed.
Ltac one_line H i' G H' := destruct (holds_cons _ _ _ H) as (getOk & i' & G & H').
Lemma after_line : forall ltr interactive newline f v i i' l v' w,
  getlineOk i = true -> (forall x, getline i x = (l, i')) -> beq l (b_ "q") = false -> interactive = true ->
  forall i'', processLine f v l i' = (w, Val (false, v', i'')) ->
  inputLoop ltr (S f) interactive (negb newline) v i = then_loop ltr interactive newline f w v' i''.
Proof.
  intros ltr interactive newline f v i i' l v' w O G Q -> i'' P. cbn [inputLoop]. rewrite O, G, Q. cbv beta iota zeta.
  rewrite P. unfold then_loop. destruct (inputLoop ltr f true (negb newline) v' i'') as [w' r'] eqn:E.
  cbn [wbind wret]. rewrite E. reflexivity.
Qed.

Lemma dash_line : forall f v c v' i, charTypeArgs v [45; c] = Some v' ->
  processLine f v [45; c] i = (optionsText v', Val (false, v', i)).
Proof.
  intros f v c v' i E. unfold processLine. change (b_ "h") with [104]. change (b_ "c") with [99]. change (b_ "f") with [102].
  change (beq [45; c] [99]) with false. change (beq [45; c] [102]) with false. change (beq [45; c] [104]) with false.
  change (dashed [45; c]) with true. cbv iota. rewrite E. cbn [wbind say wret app]. rewrite app_nil_r. reflexivity.
Qed.
Lemma step_loop : forall ltr interactive newline v ls w v' ls', step ltr interactive newline v ls w v' ls' ->
  forall f i, holds i ls -> (length ls <= S f)%nat ->
  exists i', holds i' ls' /\ inputLoop ltr (S f) interactive (negb newline) v i = then_loop ltr interactive newline f w v' i'.
Proof.
  intros ltr interactive newline v ls w v' ls' S. destruct S as [s o r Hq Hi C|r Hi|r v' Hi ->|r Hi|c t r v' Hi L ->|c t r v' Hi L ->|s r Hi Hs Ht|others c n r v' Hi F L ->];
    intros f i H Hf.
  - destruct (holds_cons _ _ _ H) as (O & i' & G & H'). exists i'. split; [exact H'|]. cbn [inputLoop]. rewrite O, G.
    replace (beq s (b_ "q")) with false by (symmetry; apply beq_neq; exact Hq). cbv beta iota zeta.
    assert (P : (if interactive then processLine f v s i' else wret (true, v, i')) = wret (true, v, i')).
    { destruct interactive; [|reflexivity]. destruct (Hi eq_refl) as (A1 & A2 & A3 & A4 & A5). unfold processLine.
      replace (beq s (b_ "c")) with false by (symmetry; apply beq_neq; exact A2).
      replace (beq s (b_ "f")) with false by (symmetry; apply beq_neq; exact A3).
      replace (beq s (b_ "h")) with false by (symmetry; apply beq_neq; exact A4).
      replace (dashed s) with false by (symmetry; apply not_true_iff_false; rewrite dashed_hd; exact A5).
      destruct s; [congruence|reflexivity]. }
    rewrite P. unfold then_loop. destruct (inputLoop ltr f interactive (negb newline) v i') as [w' r'] eqn:E.
    unfold wret. rewrite bind_value. rewrite (say_text _ _ _ _ C), !bind_value. cbv zeta. rewrite !E. cbn [fst snd app].
    destruct newline; reflexivity.
  - destruct (holds_cons _ _ _ H) as (O & i' & G & H'). exists i'. split; [exact H'|].
    eapply after_line; [exact O|exact G|reflexivity|exact Hi|reflexivity].
  - destruct (holds_cons _ _ _ H) as (O & i' & G & H'). exists i'. split; [exact H'|].
    eapply after_line; [exact O|exact G|reflexivity|exact Hi|]. rewrite <- options_text.
    unfold processLine. change (b_ "c") with [99]. cbv iota. rewrite beq_refl. cbn [wbind say wret app]. rewrite app_nil_r. reflexivity.
  - destruct (holds_cons _ _ _ H) as (O & i' & G & H'). exists i'. split; [exact H'|].
    eapply after_line; [exact O|exact G|reflexivity|exact Hi|]. rewrite <- options_text.
    unfold processLine. change (b_ "h") with [104]. change (b_ "c") with [99]. change (b_ "f") with [102]. cbv iota.
    change (beq [104] [99]) with false. change (beq [104] [102]) with false. rewrite beq_refl. cbn [wbind say wret]. rewrite app_nil_r. reflexivity.
  - destruct (holds_cons _ _ _ H) as (O & i' & G & H'). exists i'. split; [exact H'|].
    eapply after_line; [exact O|exact G|apply not_q; discriminate|exact Hi|]. rewrite <- options_text.
    destruct L; apply dash_line; reflexivity.
  - destruct (holds_cons _ _ _ H) as (O & i' & G & H'). exists i'. split; [exact H'|].
    eapply after_line; [exact O|exact G|apply not_q; discriminate|exact Hi|]. rewrite <- options_text.
    destruct L; apply dash_line; reflexivity.
  - destruct (holds_cons _ _ _ H) as (O & i' & G & H'). exists i'. split; [exact H'|].
    destruct s as [|x s]; [discriminate|]. injection Hs as ->.
    eapply after_line; [exact O|exact G|apply not_q; discriminate|exact Hi|]. rewrite <- options_text.
    assert (B : forall y, y <> 45 -> beq (45 :: s) [y] = false) by (intros y Hy; apply beq_neq; congruence).
    assert (T : charTypeArgs v (45 :: s) = None).
    { destruct s as [|c [|? ?]]; try reflexivity. destruct (char_type_args v c) as [(t & L & _)|[(t & L & _)|(_ & _ & E)]]; [| |exact E];
        exfalso; apply Ht; exists c, t; auto. }
    unfold processLine. change (b_ "h") with [104]. change (b_ "c") with [99]. change (b_ "f") with [102].
    rewrite !B by discriminate. change (dashed (45 :: s)) with true. cbv iota. rewrite T. cbn [wbind say wret].
    rewrite app_nil_r, <- !app_assoc. reflexivity.
  - destruct (holds_cons _ _ _ H) as (O & i1 & G & H1). cbn [length] in Hf. rewrite app_length in Hf. cbn [length] in Hf.
    assert (N0 : ~ answers_flag []) by (intros (x & y & E & _); discriminate).
    destruct (ask_flag others f flag_prompt [] i1 [] c n r F L N0 H1 ltac:(lia)) as (i' & E & H'). exists i'. split; [exact H'|].
    eapply after_line; [exact O|exact G|reflexivity|exact Hi|]. rewrite <- options_text.
    assert (A : askFlag f v i1 = (concat (repeat flag_prompt (S (length others))), Val (MkConv (cSource v) (cTarget v) (N.setbit (cFlags v) n), i'))).
    { unfold askFlag, ChoiceModel.get. rewrite flag_prepared. cbn [obind]. rewrite E. rewrite (flag_letter_args v c n L). reflexivity. }
    unfold processLine. change (b_ "f") with [102]. change (b_ "c") with [99]. change (beq [102] [99]) with false. rewrite beq_refl. cbv iota.
    rewrite A. cbn [wbind say wret app]. rewrite app_nil_r. reflexivity.
Qed.
Lemma step_shorter : forall ltr interactive newline v ls w v' ls', step ltr interactive newline v ls w v' ls' -> (length ls' < length ls)%nat.
Proof. intros ltr interactive newline v ls w v' ls' S. destruct S; cbn [length]; rewrite ?app_length; cbn [length]; lia. Qed.
Lemma steps_loop : forall ltr interactive newline v ls w v' ls', steps ltr interactive newline v ls w v' ls' ->
  forall f i, holds i ls -> (length ls < f)%nat ->
  exists f' i', holds i' ls' /\ (length ls' < f')%nat
    /\ inputLoop ltr f interactive (negb newline) v i = then_loop ltr interactive newline f' w v' i'.
Proof.
  intros ltr interactive newline v ls w v' ls' S. induction S as [v ls|v ls w v1 ls1 w' v2 ls2 S1 S2 IH]; intros f i H Hf.
  - exists f, i. split; [exact H|]. split; [exact Hf|]. unfold then_loop. destruct (inputLoop _ _ _ _ _ _); reflexivity.
  - destruct f as [|f]; [lia|]. destruct (step_loop _ _ _ _ _ _ _ _ S1 f i H ltac:(lia)) as (i1 & H1 & E1).
    pose proof (step_shorter _ _ _ _ _ _ _ _ S1). destruct (IH f i1 H1 ltac:(lia)) as (f' & i2 & H2 & Hf' & E2).
    exists f', i2. split; [exact H2|]. split; [exact Hf'|]. rewrite E1. unfold then_loop at 1. rewrite E2. unfold then_loop. cbn [fst snd].
    rewrite app_assoc. reflexivity.
Qed.
(** running out of fuel while asked for a flag *)
Lemma waits_loop : forall ltr newline v others f i, Forall (fun s => ~ answers_flag s) others -> holds i (b_ "f" :: others) ->
  snd (inputLoop ltr f true (negb newline) v i) = Fuel.
Proof.
  intros ltr newline v others f i F H. destruct f as [|f]; [reflexivity|].
  destruct (holds_cons _ _ _ H) as (O & i' & G & H'). cbn [inputLoop]. rewrite O, G.
  assert (N0 : ~ answers_flag []) by (intros (x & y & E & _); discriminate).
  assert (A : askFlag f v i' = ([], Fuel)).
  { unfold askFlag, ChoiceModel.get. rewrite flag_prepared. cbn [obind]. rewrite (ask_waits f others) by assumption. reflexivity. }
  change (beq (b_ "f") (b_ "q")) with false. cbv iota. unfold processLine. change (b_ "f") with [102]. change (b_ "c") with [99].
  change (beq [102] [99]) with false. rewrite beq_refl. cbv iota. rewrite A. reflexivity.
Qed.

Lemma session_loop : forall ltr interactive newline v ls w f i, session ltr interactive newline v ls w -> holds i ls -> (length ls < f)%nat ->
  inputLoop ltr f interactive (negb newline) v i = (w, Val tt).
Proof.
  intros ltr interactive newline v ls w f i (v' & ls' & S & E) H Hf. destruct (steps_loop _ _ _ _ _ _ _ _ S f i H Hf) as (f' & i' & H' & Hf' & ->).
  unfold then_loop. destruct f' as [|f']; [lia|]. destruct E as [->|[r ->]].
  - destruct (holds_nil _ H') as (O & _). cbn [inputLoop]. rewrite O. cbn. rewrite app_nil_r. reflexivity.
  - destruct (holds_cons _ _ _ H') as (O & i2 & G & _). cbn [inputLoop]. rewrite O, G. rewrite beq_refl. cbn. rewrite app_nil_r. reflexivity.
Qed.
(** more fuel changes nothing once a result is there *)
Lemma ask_one : forall f m d p line i w, askLoop (S f) m d p line i w =
    let written := w ++ p in let '(line, i) := getline i line in
      match line, d with
      | [], Some d => Val (d, i, written)
      | [c], _ => if hasKey c m then Val (c, i, written) else askLoop f m d p line i written
      | _, _ => askLoop f m d p line i written
      end.
Proof. reflexivity. Qed.
Lemma ask_more : forall f m d p line i w, askLoop f m d p line i w <> Fuel -> askLoop (S f) m d p line i w = askLoop f m d p line i w.
Proof.
  induction f as [|f IH]; intros m d p line i w H; [contradiction|].
  cbn [askLoop] in H. remember (S f) as g eqn:G. cbn [askLoop]. subst g. rewrite (ask_one f). cbv zeta in *. destruct (getline i line) as [l i'].
  destruct l as [|c [|c' l]].
  - destruct d; [reflexivity|]. apply IH. exact H.
  - destruct d; (destruct (hasKey c m); [reflexivity|apply IH; exact H]).
  - destruct d; apply IH; exact H.
Qed.
Lemma flag_more : forall f v i, snd (askFlag f v i) <> Fuel -> askFlag (S f) v i = askFlag f v i.
Proof.
  intros f v i H. unfold askFlag, ChoiceModel.get in *. rewrite flag_prepared in *. cbn [obind] in *.
  rewrite (ask_more f); [reflexivity|]. intro K. rewrite K in H. apply H. reflexivity.
Qed.
Lemma line_more : forall f v l i, snd (processLine f v l i) <> Fuel -> processLine (S f) v l i = processLine f v l i.
Proof.
  intros f v l i H. unfold processLine in *. destruct l as [|c l]; [reflexivity|].
  destruct (beq (c :: l) (b_ "c")); [reflexivity|]. destruct (beq (c :: l) (b_ "f")); [|reflexivity].
  rewrite flag_more; [reflexivity|]. intro K. apply H. destruct (askFlag f v i) as [w r]. cbn [snd] in K. subst. reflexivity.
Qed.
Lemma bind_fuel : forall A B (m : W A) (k : A -> W B), snd (wbind m k) <> Fuel -> snd m <> Fuel.
Proof. intros A B [w r] k H K. cbn [snd] in K. subst. apply H. reflexivity. Qed.
Lemma loop_more : forall ltr interactive suppress f v i, snd (inputLoop ltr f interactive suppress v i) <> Fuel ->
  inputLoop ltr (S f) interactive suppress v i = inputLoop ltr f interactive suppress v i.
Proof.
  intros ltr interactive suppress. induction f as [|f IH]; intros v i H; [contradiction|].
  remember (S f) as g eqn:G. cbn [inputLoop]. subst g. cbn [inputLoop] in H. change (inputLoop ltr (S f) interactive suppress v i) with
    (if getlineOk i then
        let '(line, i) := getline i [] in
        if beq line (b_ "q") then wret tt
        else
          wbind (if interactive then processLine f v line i else wret (true, v, i)) (fun '(text, v, i) =>
          wbind (if text : bool then wbind (sayText ltr v line) (fun _ => if suppress then wret tt else say [10]) else wret tt)
            (fun _ => inputLoop ltr f interactive suppress v i))
      else wret tt).
  destruct (getlineOk i); [|reflexivity]. destruct (getline i []) as [line i1]. destruct (beq line (b_ "q")); [reflexivity|].
  assert (E : (if interactive then processLine (S f) v line i1 else wret (true, v, i1)) = (if interactive then processLine f v line i1 else wret (true, v, i1))).
  { destruct interactive; [|reflexivity]. apply line_more. apply bind_fuel in H. exact H. }
  rewrite E. destruct (if interactive then processLine f v line i1 else wret (true, v, i1)) as [w [[[text v'] i']|e| |]]; try reflexivity.
  rewrite !bind_value. rewrite bind_value in H. cbn [snd] in H.
  set (m := if text then _ else _) in *. destruct m as [w' [[]|e| |]]; try reflexivity.
  rewrite bind_value in H. cbn [snd] in H. rewrite !bind_value, (IH v' i' H). reflexivity.
Qed.
Lemma loop_most : forall ltr interactive suppress f g v i, (f <= g)%nat -> snd (inputLoop ltr f interactive suppress v i) <> Fuel ->
  inputLoop ltr g interactive suppress v i = inputLoop ltr f interactive suppress v i.
Proof.
  intros ltr interactive suppress f g v i L H. induction L as [|g L IH]; [reflexivity|]. rewrite loop_more; [exact IH|]. rewrite IH. exact H.
Qed.
Lemma waiting : forall ltr interactive newline v ls f i, waits ltr interactive newline v ls -> holds i ls ->
  snd (inputLoop ltr f interactive (negb newline) v i) = Fuel.
Proof.
  intros ltr interactive newline v ls f i (-> & w & v' & others & S & F) H.
  set (g := (f + Datatypes.S (length ls))%nat).
  assert (E : snd (inputLoop ltr g true (negb newline) v i) = Fuel).
  { destruct (steps_loop _ _ _ _ _ _ _ _ S g i H ltac:(lia)) as (f' & i' & H' & Hf' & ->). unfold then_loop. cbn [snd].
    eapply waits_loop; eassumption. }
  destruct (snd (inputLoop ltr f true (negb newline) v i)) eqn:K; [| | |reflexivity]; exfalso;
    (rewrite (loop_most ltr true (negb newline) f g v i ltac:(lia)) in E; [congruence|congruence]).
Qed.
(** ** every session ends or waits *)
Lemma flag_answer : forall ls, (exists others c n r, ls = others ++ [c] :: r /\ Forall (fun s => ~ answers_flag s) others /\ flag_letter c n)
  \/ Forall (fun s => ~ answers_flag s) ls.
Proof.
  assert (D : forall s, answers_flag s \/ ~ answers_flag s).
  { intro s. destruct s as [|c [|? ?]]; [right; intros (? & ? & E & _); discriminate| |right; intros (? & ? & E & _); discriminate].
    destruct (hasKey c flagChoices) eqn:K.
    - apply has_flag_key in K. destruct K as [n K]. left. exists c, n. auto.
    - right. intros (c' & n & E & L). injection E as ->. assert (hasKey c' flagChoices = true) by (apply has_flag_key; eauto). congruence. }
  induction ls as [|s ls IH]; [right; constructor|]. destruct (D s) as [(c & n & -> & L)|Hs].
  - left. exists [], c, n, ls. split; [reflexivity|]. split; [constructor|exact L].
  - destruct IH as [(o & c & n & r & -> & F & L)|F]; [|right; constructor; assumption].
    left. exists (s :: o), c, n, r. split; [reflexivity|]. split; [constructor; assumption|exact L].
Qed.
Lemma one_step : forall ltr interactive newline v s ls, bytes_ok s -> s <> b_ "q" ->
  (exists w v' ls', step ltr interactive newline v (s :: ls) w v' ls')
  \/ (interactive = true /\ s = b_ "f" /\ Forall (fun s => ~ answers_flag s) ls).
Proof.
  intros ltr interactive newline v s ls B Q. destruct (converted_total ltr v s B) as [o C].
  destruct interactive; [|left; do 3 eexists; eapply st_text; [exact Q|discriminate|exact C]].
  destruct (list_eq_dec N.eq_dec s []) as [->|A1]; [left; do 3 eexists; apply st_empty; reflexivity|].
  destruct (list_eq_dec N.eq_dec s (b_ "c")) as [->|A2]; [left; do 3 eexists; apply st_clear; reflexivity|].
  destruct (list_eq_dec N.eq_dec s (b_ "f")) as [->|A3].
  { destruct (flag_answer ls) as [(others & c & n & r & -> & F & L)|F].
    - left. do 3 eexists. eapply st_flag; [reflexivity|exact F|exact L|reflexivity].
    - right. auto. }
  destruct (list_eq_dec N.eq_dec s (b_ "h")) as [->|A4]; [left; do 3 eexists; apply st_help; reflexivity|].
  destruct (dashed s) eqn:D.
  - apply dashed_hd in D. left. destruct (charTypeArgs v s) as [v'|] eqn:E.
    + destruct s as [|x [|c [|? ?]]]; try discriminate. injection D as ->.
      destruct (char_type_args v c) as [(t & L & _)|[(t & L & _)|(_ & _ & E')]]; [| |change (charTypeArgs v [45; c]) with (charTypeArgs v [45; c]) in E; congruence].
      * do 3 eexists. eapply st_target; [reflexivity|exact L|reflexivity].
      * do 3 eexists. eapply st_source; [reflexivity|exact L|reflexivity].
    + do 3 eexists. eapply st_illegal; [reflexivity|exact D|]. intros (c & t & -> & L). destruct L as [L|L]; destruct L; discriminate.
  - left. do 3 eexists. eapply st_text; [exact Q| |exact C]. intros _. repeat split; try assumption. intro K. apply dashed_hd in K. congruence.
Qed.
Lemma step_ok : forall ltr interactive newline v ls w v' ls', step ltr interactive newline v ls w v' ls' -> Forall bytes_ok ls -> Forall bytes_ok ls'.
Proof.
  intros ltr interactive newline v ls w v' ls' S. destruct S; intro F; try (inversion F; assumption).
  apply Forall_cons_iff in F. destruct F as [_ F]. apply Forall_app in F. destruct F as [_ F]. inversion F; assumption.
Qed.
Lemma ends_or_waits : forall ltr interactive newline ls v, Forall bytes_ok ls ->
  (exists w, session ltr interactive newline v ls w) \/ waits ltr interactive newline v ls.
Proof.
  intros ltr interactive newline ls. remember (length ls) as k eqn:Hk. assert (L : (length ls <= k)%nat) by lia. clear Hk. revert ls L.
  induction k as [|k IH]; intros ls L v F.
  - destruct ls; [|cbn in L; lia]. left. exists [], v, []. split; [constructor|left; reflexivity].
  - destruct ls as [|s ls]; [left; exists [], v, []; split; [constructor|left; reflexivity]|].
    destruct (list_eq_dec N.eq_dec s (b_ "q")) as [->|Q].
    { left. exists [], v, (b_ "q" :: ls). split; [constructor|right; eauto]. }
    destruct (one_step ltr interactive newline v s ls) as [(w & v' & ls' & S)|(E1 & -> & E2)]; [inversion F; assumption|exact Q| |].
    + pose proof (step_shorter _ _ _ _ _ _ _ _ S) as K. cbn [length] in K, L.
      destruct (IH ls' ltac:(lia) v' (step_ok _ _ _ _ _ _ _ _ S F)) as [(w' & v'' & ls'' & S' & E)|(E & w' & v'' & others & S' & E')].
      * left. exists (w ++ w'), v'', ls''. split; [econstructor; eassumption|exact E].
      * right. split; [exact E|]. exists (w ++ w'), v'', others. split; [econstructor; eassumption|exact E'].
    + right. split; [exact E1|]. exists [], v, ls. split; [constructor|exact E2].
Qed.

(** ** 65535 arguments *)
Lemma rest_wraps : forall f l i, len l = 65535 -> i < 65535 ->
  restArgs f (argsOf l) i = Fuel \/ exists r, restArgs f (argsOf l) i = Val (r, 65535).
Proof.
  induction f as [|f IH]; intros l i Hl Hi; [left; reflexivity|]. cbn [restArgs]. change (argc (argsOf l)) with (len l). rewrite Hl.
  unfold u16. rewrite N.mod_small by lia. destruct (N.ltb_spec (i + 1) 65535) as [L|L].
  - destruct (nth_error l (N.to_nat (i + 1))) as [s|] eqn:E; [|apply nth_error_None in E; unfold len in Hl; lia].
    rewrite (argAt_spec l (i + 1) s E). cbn [obind]. destruct (IH l (i + 1) Hl L) as [-> |[r ->]]; [left; reflexivity|right; eexists; reflexivity].
  - right. exists []. replace (i + 1) with 65535 by lia. reflexivity.
Qed.
Lemma never_read : forall prog l, len (prog :: b_ "--" :: l) = 65535 -> hd_error prog <> Some 45 ->
  forall f p i, i = 0 \/ i = 1 -> readLoop f (argsOf (prog :: b_ "--" :: l)) i p = Fuel.
Proof.
  intros prog l Hl Hp. assert (D : dashed prog = false) by (apply not_true_iff_false; rewrite dashed_hd; exact Hp).
  assert (B : forall y r, beq prog (45 :: y :: r) = false) by (intros; apply beq_neq; intro K; apply Hp; rewrite K; reflexivity).
  assert (B1 : forall r, beq prog (45 :: r) = false) by (intros; apply beq_neq; intro K; apply Hp; rewrite K; reflexivity).
  induction f as [|f IH]; intros p i Hi; [reflexivity|]. cbn [readLoop]. change (argc (argsOf (prog :: b_ "--" :: l))) with (len (prog :: b_ "--" :: l)).
  rewrite Hl. destruct Hi as [-> | ->].
  - change (0 <? 65535) with true. rewrite (argAt_spec (prog :: b_ "--" :: l) 0 prog) by reflexivity. cbn [obind].
    change (b_ "--") with [45; 45] at 1. change (b_ "-?") with [45; 63]. change (b_ "-f") with [45; 102]. rewrite !B. unfold processArg.
    change (b_ "-i") with [45; 105]. change (b_ "-m") with [45; 109]. change (b_ "-n") with [45; 110]. change (b_ "-p") with [45; 112].
    rewrite !B, D. cbn [obind]. apply IH. right. reflexivity.
  - change (1 <? 65535) with true. rewrite (argAt_spec (prog :: b_ "--" :: l) 1 (b_ "--")) by reflexivity. cbn [obind].
    rewrite beq_refl. destruct (rest_wraps f (prog :: b_ "--" :: l) 1 Hl ltac:(lia)) as [-> |[r ->]]; [reflexivity|]. cbn [obind].
    apply IH. left. reflexivity.
Qed.
Lemma never_ends : forall ltr fuel prog l terminal i, len (prog :: b_ "--" :: l) = 65535 -> hd_error prog <> Some 45 ->
  program ltr fuel (argsOf (prog :: b_ "--" :: l)) terminal i = ([], Fuel).
Proof. intros ltr fuel prog l terminal i H1 H2. unfold program, readProgram. rewrite (never_read prog l H1 H2) by (right; reflexivity). reflexivity. Qed.

(** ** the program *)
Lemma program_performs : forall ltr fuel prog l terminal i t, len (prog :: l) < 65535 -> (S (length l) < fuel)%nat ->
  command terminal l t -> program ltr fuel (argsOf (prog :: l)) terminal i = perform ltr fuel i t.
Proof.
  intros ltr fuel prog l terminal i t Hl Hf C. rewrite program_plan, read_program by assumption. rewrite (command_plan _ _ _ C).
  cbn [lift wbind]. destruct (perform ltr fuel i t). reflexivity.
Qed.
Lemma task_unique : forall terminal l t t', command terminal l t -> command terminal l t' -> t = t'.
Proof. intros terminal l t t' H H'. apply command_plan in H, H'. congruence. Qed.
Lemma tasks : forall ltr fuel prog l terminal i, len (prog :: l) < 65535 -> (S (length l) < fuel)%nat ->
  (exists t, command terminal l t /\ forall t', command terminal l t' -> t' = t)
  \/ ((forall t, ~ command terminal l t) /\ program ltr fuel (argsOf (prog :: l)) terminal i = ([], Throw DomainError)).
Proof.
  intros ltr fuel prog l terminal i Hl Hf. destruct (planned terminal l) as [[t C]|E].
  - left. exists t. split; [exact C|]. intros t' C'. eapply task_unique; eassumption.
  - right. split; [intros t C; apply command_plan in C; congruence|]. rewrite program_plan, read_program by assumption. rewrite E. reflexivity.
Qed.
Lemma strings_written : forall ltr fuel prog l terminal i v ss, len (prog :: l) < 65535 -> (S (length l) < fuel)%nat ->
  command terminal l (TStrings v ss) -> Forall bytes_ok ss ->
  exists outs, Forall2 (converted ltr v) ss outs
    /\ program ltr fuel (argsOf (prog :: l)) terminal i = (separated (separator v) outs ++ [10], Val tt).
Proof.
  intros ltr fuel prog l terminal i v ss Hl Hf C B.
  assert (X : exists outs, Forall2 (converted ltr v) ss outs).
  { clear - B. induction B as [|s ss H B IH]; [exists []; constructor|]. destruct IH as [outs IH]. destruct (converted_total ltr v s H) as [o Ho].
    exists (o :: outs). constructor; assumption. }
  destruct X as [outs X]. exists outs. split; [exact X|]. rewrite (program_performs _ _ _ _ _ _ _ Hl Hf C). apply say_strings. exact X.
Qed.
Lemma input_shown : forall ltr fuel i interactive newline v,
  getInput ltr fuel interactive (negb newline) v i
  = ((if interactive : bool then options_shown v else []) ++ fst (inputLoop ltr fuel interactive (negb newline) v i),
     snd (inputLoop ltr fuel interactive (negb newline) v i)).
Proof.
  intros ltr fuel i interactive newline v. unfold getInput. rewrite <- options_text. destruct interactive; unfold say, wret; rewrite bind_value; reflexivity.
Qed.
Lemma session_written : forall ltr fuel prog l terminal text ls interactive newline v w, len (prog :: l) < 65535 -> (S (length l) < fuel)%nat ->
  command terminal l (TInput interactive newline v) -> lines text ls -> (length ls < fuel)%nat ->
  session ltr interactive newline v ls w ->
  program ltr fuel (argsOf (prog :: l)) terminal (MkIn text false) = ((if interactive : bool then options_shown v else []) ++ w, Val tt).
Proof.
  intros ltr fuel prog l terminal text ls interactive newline v w Hl Hf C L Hs S. rewrite (program_performs _ _ _ _ _ _ _ Hl Hf C).
  cbn [perform]. rewrite input_shown. rewrite (session_loop ltr interactive newline v ls w fuel _ S); [reflexivity| |exact Hs].
  right. auto.
Qed.
Lemma session_hangs : forall ltr fuel prog l terminal text ls interactive newline v, len (prog :: l) < 65535 -> (S (length l) < fuel)%nat ->
  command terminal l (TInput interactive newline v) -> lines text ls -> waits ltr interactive newline v ls ->
  snd (program ltr fuel (argsOf (prog :: l)) terminal (MkIn text false)) = Fuel.
Proof.
  intros ltr fuel prog l terminal text ls interactive newline v Hl Hf C L W. rewrite (program_performs _ _ _ _ _ _ _ Hl Hf C).
  cbn [perform]. rewrite input_shown. cbn [snd]. apply waiting with ls; [exact W|]. right. auto.
Qed.
Lemma session_exists : forall ltr interactive newline v text, bytes_ok text -> exists ls, lines text ls
  /\ ((exists w, session ltr interactive newline v ls w) \/ waits ltr interactive newline v ls).
Proof.
  intros ltr interactive newline v text B. destruct (some_lines text) as [ls L]. exists ls. split; [exact L|].
  apply ends_or_waits. eapply lines_ok; eassumption.
Qed.
Lemma lines_unique : forall s ls, lines s ls -> forall ls', lines s ls' -> ls = ls'.
Proof.
  intros s ls H. induction H as [|l A B|l s ls A H IH]; intros ls' H'.
  - inversion H' as [|l X|l s ls X Y E]; subst; [reflexivity|contradiction|]. destruct l; discriminate.
  - inversion H' as [E|l' X|l' s ls'' X Y E]; subst; [contradiction|reflexivity|]. exfalso. apply B. apply in_or_app. right. left. reflexivity.
  - inversion H' as [E|l' X Y|l' s' ls'' X Y E]; subst.
    + destruct l; discriminate.
    + exfalso. apply Y. apply in_or_app. right. left. reflexivity.
    + assert (K : l' = l /\ s' = s).
      { pose proof (split_lf l s A) as S1. pose proof (split_lf l' s' X) as S2. rewrite E in S2. rewrite S1 in S2. inversion S2. auto. }
      destruct K as [-> ->]. f_equal. apply IH. exact Y.
Qed.
Lemma session_unique : forall ltr interactive newline v ls w w', session ltr interactive newline v ls w -> session ltr interactive newline v ls w' ->
  Forall (fun l => ~ In 10 l) ls -> w = w'.
Proof.
  intros ltr interactive newline v ls w w' S S' F.
  assert (H : exists i, holds i ls).
  { exists (MkIn (flat_map (fun l => l ++ [10]) ls) false). right. split; [reflexivity|]. cbn [inRest]. clear - F.
    induction F as [|l ls H F IH]; [constructor|]. cbn [flat_map]. rewrite <- app_assoc. apply ln_cons; assumption. }
  destruct H as [i H]. pose proof (session_loop _ _ _ _ _ _ (Datatypes.S (length ls)) i S H (le_n _)) as E.
  rewrite (session_loop _ _ _ _ _ _ (Datatypes.S (length ls)) i S' H (le_n _)) in E. congruence.
Qed.
Lemma piped_session : forall ltr newline v ls outs, Forall2 (converted ltr v) ls outs -> ~ In (b_ "q") ls ->
  session ltr false newline v ls (flat_map (fun o => o ++ if newline : bool then [10] else []) outs).
Proof.
  intros ltr newline v ls outs H Q. exists v, []. split; [|left; reflexivity]. induction H as [|s o ls outs H1 H2 IH]; [constructor|].
  cbn [flat_map]. eapply sts_one; [|apply IH; intro K; apply Q; right; exact K]. apply st_text; [intro K; apply Q; left; auto|discriminate|exact H1].
Qed.
