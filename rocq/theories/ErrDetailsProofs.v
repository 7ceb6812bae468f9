(** Lemmas about the messages about ids, strokes and the Kanji argument. *)
From Verif Require Import BaseFacts StringModel StringSpec StringProofs Utf8Proofs BlockProofs DataLemmas IdsModel IdsSpec IdsProofs DetailsArg.
From Verif Require Import ErrArgsProofs.
From Verif Require Import ErrDetailsSpec.
From Verif Require Import ErrBase.
Open Scope N_scope.

Arguments N.mul : simpl never.
Arguments N.add : simpl never.
Arguments N.sub : simpl never.
Arguments N.div : simpl never.
Arguments N.modulo : simpl never.
Arguments N.ltb : simpl never.
Arguments N.leb : simpl never.
Arguments N.eqb : simpl never.

(** ** The same results *)
Lemma loopT_plain : forall s cs l r, plain (validateLoopT s cs l r) = validateLoop cs l r.
Proof.
  intros s cs. induction cs as [|c cs IH]; intros l r; [reflexivity|]. cbn [validateLoopT validateLoop]. cbv zeta.
  destruct (l && (c =? 48)); [apply IH|]. destruct ((c <? 48) || (57 <? c)); [reflexivity|].
  destruct (MaxId / 10 <? r); [reflexivity|]. destruct (_ <? _); [reflexivity|]. apply IH.
Qed.
Lemma validateT_plain : forall s p q, plain (validateT s p q) = validate s p q.
Proof.
  intros s p q. unfold validateT, validate. destruct (_ && _ && _); [reflexivity|]. destruct (_ <? _); [reflexivity|]. destruct (_ =? 0); [reflexivity|].
  rewrite plain_bind, loopT_plain. destruct (validateLoop _ _ _) as [r|e| |]; cbn [obind]; try reflexivity. destruct (_ && _); reflexivity.
Qed.
Lemma newMorohashiT_plain : forall s, plain (newMorohashiT s) = newMorohashi s.
Proof.
  intro s. unfold newMorohashiT, newMorohashi. rewrite plain_bind. f_equal. unfold getIdT, getId.
  destruct (isDoublePrime s); [apply validateT_plain|]. destruct (isPrime s); [apply validateT_plain|]. destruct (isSupplemental s); apply validateT_plain.
Qed.
Lemma newStrokesT_plain : forall v, plain (newStrokesT v) = newStrokes v.
Proof. intro v. unfold newStrokesT, newStrokes. destruct (_ || _); reflexivity. Qed.
Lemma newStrokes2T_plain : forall v w, plain (newStrokes2T v w) = newStrokes2 v w.
Proof.
  intros v w. unfold newStrokes2T, newStrokes2. destruct (_ || _); [reflexivity|]. destruct (_ || _); [reflexivity|]. destruct (_ =? _); reflexivity.
Qed.
Lemma getNumericIdT_plain : forall m s, plain (getNumericIdT m s) = getNumericId s.
Proof. intros m s. unfold getNumericIdT, getNumericId. destruct (readU16 s) as [[v r]|]; reflexivity. Qed.

(** ** Morohashi ids *)
Lemma loop_digit : forall s c r l a, is_digit c -> (l = true -> a = 0) -> a <= 65535 ->
  validateLoopT s (c :: r) l a
  = if 65535 <? a * 10 + (c - 48) then idError s (b_ "exceeds max")
    else validateLoopT s r (l && (c =? 48)) (a * 10 + (c - 48)).
Proof.
  intros s c r l a [H1 H2] Hl Ha. cbn [validateLoopT]. cbv zeta. unfold MaxId. change (65535 / 10) with 6553.
  destruct (l && (c =? 48)) eqn:E.
  - apply andb_true_iff in E. destruct E as [E1 E2]. rewrite (Hl E1). assert (c = 48) by lia. subst c. change (0 * 10 + (48 - 48)) with 0. reflexivity.
  - replace ((c <? 48) || (57 <? c)) with false by lia. destruct (6553 <? a) eqn:E3.
    { replace (65535 <? a * 10 + (c - 48)) with true by lia. reflexivity. }
    replace (u16 (a * 10)) with (a * 10). 2:{ unfold u16. change (2^16) with 65536. rewrite N.mod_small by lia. reflexivity. }
    destruct (65535 - (c - 48) <? a * 10) eqn:E4; [replace (65535 <? a * 10 + (c - 48)) with true by lia; reflexivity|].
    replace (65535 <? a * 10 + (c - 48)) with false by lia.
    replace (u16 (a * 10 + (c - 48))) with (a * 10 + (c - 48)). 2:{ unfold u16. change (2^16) with 65536. rewrite N.mod_small by lia. reflexivity. }
    reflexivity.
Qed.
Lemma loop_other : forall s c r l a, ~ is_digit c -> validateLoopT s (c :: r) l a = idError s (b_ "is non-numeric").
Proof.
  intros s c r l a H. cbn [validateLoopT]. unfold is_digit in H. replace (c =? 48) with false by lia. rewrite andb_false_r.
  replace ((c <? 48) || (57 <? c)) with true by lia. reflexivity.
Qed.
Lemma dfold_cons : forall c r a, dfold (c :: r) a = dfold r (a * 10 + (c - 48)).
Proof. reflexivity. Qed.
Lemma step_lead : forall c (l : bool) a, (l = true -> a = 0) -> l && (c =? 48) = true -> a * 10 + (c - 48) = 0.
Proof. intros c l a H E. apply andb_true_iff in E. destruct E as [E1 E2]. rewrite (H E1). lia. Qed.
Lemma loop_not_a_digit : forall s ds c r l a, Forall is_digit ds -> ~ is_digit c -> (l = true -> a = 0) -> a <= 65535 -> dfold ds a <= 65535 ->
  validateLoopT s (ds ++ c :: r) l a = idError s (b_ "is non-numeric").
Proof.
  intros s ds. induction ds as [|x ds IH]; intros c r l a D Hc Hl Ha Hv; cbn [app]; [apply loop_other; exact Hc|].
  inversion D; subst. rewrite dfold_cons in Hv. pose proof (dfold_ge ds (a * 10 + (x - 48))) as G.
  rewrite loop_digit by assumption. replace (65535 <? a * 10 + (x - 48)) with false by lia.
  apply IH; [assumption|assumption|apply step_lead; exact Hl|lia|exact Hv].
Qed.
Lemma loop_large : forall s ds r l a, Forall is_digit ds -> (l = true -> a = 0) -> a <= 65535 -> 65535 < dfold ds a ->
  validateLoopT s (ds ++ r) l a = idError s (b_ "exceeds max").
Proof.
  intros s ds. induction ds as [|x ds IH]; intros r l a D Hl Ha Hv; cbn [app]; [unfold dfold in Hv; cbn [fold_left] in Hv; lia|].
  inversion D; subst. rewrite dfold_cons in Hv. rewrite loop_digit by assumption.
  destruct (65535 <? a * 10 + (x - 48)) eqn:E; [reflexivity|].
  apply IH; [assumption|apply step_lead; exact Hl|lia|exact Hv].
Qed.
Lemma loop_digits : forall s ds l a, Forall is_digit ds -> (l = true -> a = 0) -> a <= 65535 -> dfold ds a <= 65535 ->
  validateLoopT s ds l a = Got (dfold ds a).
Proof.
  intros s ds. induction ds as [|x ds IH]; intros l a D Hl Ha Hv; [reflexivity|].
  inversion D; subst. rewrite dfold_cons in *. pose proof (dfold_ge ds (a * 10 + (x - 48))) as G.
  rewrite loop_digit by assumption. replace (65535 <? a * 10 + (x - 48)) with false by lia.
  apply IH; [assumption|apply step_lead; exact Hl|lia|exact Hv].
Qed.
Lemma digits_split : forall cs, Forall is_digit cs \/ exists ds c r, cs = ds ++ c :: r /\ Forall is_digit ds /\ ~ is_digit c.
Proof.
  induction cs as [|c cs IH]; [left; constructor|].
  assert (D : is_digit c \/ ~ is_digit c) by (unfold is_digit; lia). destruct D as [D|D].
  - destruct IH as [IH|[ds [x [r [-> [H1 H2]]]]]]; [left; constructor; assumption|right].
    exists (c :: ds), x, r. split; [reflexivity|]. split; [constructor; assumption|exact H2].
  - right. exists [], c, cs. split; [reflexivity|]. split; [constructor|exact D].
Qed.

(** the number of an id after its prefix and suffix are known *)
Definition numberOf (s n : bytes) (marked : bool) : res N :=
  match n with
  | [] => if marked then idError s (b_ "is invalid") else Got 0
  | _ => r <~ validateLoopT s n true 0 ;; if marked && (r =? 0) then idError s (b_ "can't be zero") else Got r
  end.
Lemma validateT_suffix : forall n suf, suf <> [] -> validateT (n ++ suf) 0 (len suf) = numberOf (n ++ suf) n true.
Proof.
  intros n suf Hs. unfold validateT, numberOf. rewrite len_app.
  assert (Hl : 1 <= len suf) by (destruct suf; [congruence|rewrite len_cons; lia]).
  replace (len suf =? 0) with false by lia. rewrite andb_false_r. replace (len n + len suf <? 0 + len suf) with false by lia.
  destruct n as [|x n].
  - rewrite len_nil. replace (0 + len suf - 0 - len suf =? 0) with true by lia. reflexivity.
  - rewrite len_cons. replace (1 + len n + len suf - 0 - len suf =? 0) with false by lia. change (N.to_nat 0) with 0%nat. cbn [skipn].
    replace (1 + len n + len suf - len suf - 0) with (len (x :: n)) by (rewrite len_cons; lia). rewrite firstn_len. reflexivity.
Qed.
Lemma validateT_prefix : forall n, validateT (72 :: n) 1 0 = numberOf (72 :: n) n true.
Proof.
  intro n. unfold validateT, numberOf. rewrite len_cons. replace (1 + len n =? 0) with false by lia. cbn [andb].
  replace (1 + len n <? 1 + 0) with false by lia. destruct n as [|x n]; [reflexivity|].
  rewrite len_cons. replace (1 + (1 + len n) - 1 - 0 =? 0) with false by lia. change (N.to_nat 1) with 1%nat. cbn [skipn].
  replace (1 + (1 + len n) - 0 - 1) with (len (x :: n)) by (rewrite len_cons; lia).
  replace (firstn (N.to_nat (len (x :: n))) (x :: n)) with (x :: n); [reflexivity|].
  rewrite <- (app_nil_r (x :: n)) at 3. rewrite firstn_len. reflexivity.
Qed.
Lemma validateT_all : forall n, validateT n 0 0 = numberOf n n false.
Proof.
  intro n. unfold validateT, numberOf. destruct n as [|x n]; [reflexivity|]. rewrite len_cons. replace (1 + len n =? 0) with false by lia. cbn [andb].
  replace (1 + len n <? 0 + 0) with false by lia. replace (1 + len n - 0 - 0 =? 0) with false by lia. change (N.to_nat 0) with 0%nat. cbn [skipn].
  replace (1 + len n - 0 - 0) with (len (x :: n)) by (rewrite len_cons; lia).
  replace (firstn (N.to_nat (len (x :: n))) (x :: n)) with (x :: n); [reflexivity|].
  rewrite <- (app_nil_r (x :: n)) at 3. rewrite firstn_len. reflexivity.
Qed.
Lemma ends_last : forall (n : bytes) x y, ends_with_str (n ++ [x]) [y] = (y =? x).
Proof. intros n x y. unfold ends_with_str. rewrite rev_app_distr. cbn [rev app starts_with]. destruct (rev n); rewrite andb_true_r; reflexivity. Qed.
Lemma ends_two : forall (n : bytes) x y, ends_with_str (n ++ [x]) [y; y] = (y =? x) && ends_with_str n [y].
Proof. intros n x y. unfold ends_with_str. rewrite rev_app_distr. reflexivity. Qed.
Lemma not_ends : forall s p, (forall r, s <> r ++ p) -> ends_with_str s p = false.
Proof. intros s p H. destruct (ends_with_str s p) eqn:E; [|reflexivity]. apply ends_with_iff in E. destruct E as [r E]. exfalso. exact (H r E). Qed.
Lemma no_mark_prime : forall s, ~ ends_in_mark s <-> isPrime s = false.
Proof.
  intro s. unfold isPrime, ends_in_mark. change (b_ "P") with [80]. change (b_ "'") with [39]. split.
  - intro H. rewrite !not_ends; [reflexivity| |]; intros r E; apply H; exists r; auto.
  - intros H [r E]. apply orb_false_iff in H. destruct H as [H1 H2]. destruct E as [E|E].
    + assert (X : ends_with_str s [80] = true) by (apply ends_with_iff; eauto). congruence.
    + assert (X : ends_with_str s [39] = true) by (apply ends_with_iff; eauto). congruence.
Qed.
Lemma prime_double : forall s, isPrime s = false -> isDoublePrime s = false.
Proof.
  intros s H. unfold isPrime in H. apply orb_false_iff in H. destruct H as [H1 H2]. unfold isDoublePrime.
  rewrite !not_ends; [reflexivity| |]; intros r E; subst s.
  - change [39; 39] with ([39] ++ [39]) in H2. rewrite app_assoc, ends_last in H2. discriminate.
  - change [80; 80] with ([80] ++ [80]) in H1. rewrite app_assoc, ends_last in H1. discriminate.
Qed.
Lemma parts_get : forall s n m, id_parts s n m -> getIdT s = numberOf s n m.
Proof.
  intros s n m H. unfold getIdT. destruct H as [n|n|n H|n H|n H|n H1 H2].
  - change (b_ "PP") with [80; 80]. replace (isDoublePrime (n ++ [80; 80])) with true.
    2:{ symmetry. unfold isDoublePrime. apply orb_true_iff. left. apply ends_with_iff. eauto. }
    apply (validateT_suffix n [80; 80]). discriminate.
  - change (b_ "''") with [39; 39]. replace (isDoublePrime (n ++ [39; 39])) with true.
    2:{ symmetry. unfold isDoublePrime. apply orb_true_iff. right. apply ends_with_iff. eauto. }
    apply (validateT_suffix n [39; 39]). discriminate.
  - change (b_ "P") with [80] in *. unfold isDoublePrime, isPrime. rewrite !ends_two, !ends_last, (not_ends n [80] H).
    change (80 =? 80) with true. change (39 =? 80) with false. cbn [andb orb]. apply (validateT_suffix n [80]). discriminate.
  - change (b_ "'") with [39] in *. unfold isDoublePrime, isPrime. rewrite !ends_two, !ends_last, (not_ends n [39] H).
    change (80 =? 39) with false. change (39 =? 39) with true. cbn [andb orb]. apply (validateT_suffix n [39]). discriminate.
  - apply no_mark_prime in H. rewrite (prime_double _ H), H. change (b_ "H") with [72]. cbn [app].
    replace (isSupplemental (72 :: n)) with true. 2:{ symmetry. apply starts_with_iff. exists n. reflexivity. }
    apply validateT_prefix.
  - apply no_mark_prime in H1. rewrite (prime_double _ H1), H1. change (b_ "H") with [72] in H2.
    replace (isSupplemental n) with false; [apply validateT_all|].
    symmetry. destruct (isSupplemental n) eqn:E; [|reflexivity]. apply starts_with_iff in E. destruct E as [r E]. exfalso. exact (H2 r E).
Qed.
Lemma parts_total : forall s, exists n m, id_parts s n m.
Proof.
  intro s. destruct (isPrime s) eqn:P.
  - unfold isPrime in P. apply orb_true_iff in P. destruct P as [P|P]; apply ends_with_iff in P; destruct P as [n ->].
    + destruct (ends_with_str n [80]) eqn:E.
      * apply ends_with_iff in E. destruct E as [r ->]. rewrite <- app_assoc. exists r, true. exact (ip_double r).
      * exists n, true. apply ip_prime. intros r X. assert (Y : ends_with_str n [80] = true) by (apply ends_with_iff; eauto). congruence.
    + destruct (ends_with_str n [39]) eqn:E.
      * apply ends_with_iff in E. destruct E as [r ->]. rewrite <- app_assoc. exists r, true. exact (ip_double_alt r).
      * exists n, true. apply ip_prime_alt. intros r X. assert (Y : ends_with_str n [39] = true) by (apply ends_with_iff; eauto). congruence.
  - destruct (isSupplemental s) eqn:Q.
    + apply starts_with_iff in Q. destruct Q as [r ->]. exists r, true. apply ip_supplemental. apply no_mark_prime. exact P.
    + exists s, false. apply ip_plain; [apply no_mark_prime; exact P|].
      intros r E. assert (Y : isSupplemental s = true) by (apply starts_with_iff; exists r; exact E). congruence.
Qed.
Lemma message_eq : forall s why, @idError N s why = Says DomainError (id_message s why).
Proof.
  intros s why. unfold idError, id_message, quoted. rewrite <- !app_assoc. reflexivity.
Qed.
Lemma wrong_get : forall s why, id_wrong s why -> getIdT s = Says DomainError (id_message s why).
Proof.
  intros s why H. rewrite <- message_eq. destruct H as [s P|s ds c r m P D C V|s ds r m P D V|s ds P D V]; rewrite (parts_get _ _ _ P); unfold numberOf.
  - reflexivity.
  - destruct (ds ++ c :: r) as [|y l] eqn:E; [destruct ds; discriminate E|]. rewrite <- E.
    rewrite loop_not_a_digit; [reflexivity|assumption|assumption|reflexivity|lia|exact V].
  - destruct (ds ++ r) as [|y l] eqn:E. { destruct ds; [|discriminate E]. unfold decimal in V. cbn [fold_left] in V. lia. }
    rewrite <- E. rewrite loop_large; [reflexivity|assumption|reflexivity|lia|exact V].
  - destruct D as [D1 D2]. destruct ds as [|y l]; [congruence|]. change (decimal (y :: l)) with (dfold (y :: l) 0) in V.
    rewrite loop_digits; [|assumption|reflexivity|lia|lia]. cbn [rbind]. rewrite V. reflexivity.
Qed.
Lemma right_or_wrong : forall s, (exists i, getIdT s = Got i) \/ exists why, id_wrong s why.
Proof.
  intro s. destruct (parts_total s) as [n [m P]]. rewrite (parts_get _ _ _ P). destruct n as [|y l].
  - destruct m; [right; eexists; exact (iw_nothing s P)|left; eexists; reflexivity].
  - unfold numberOf. destruct (digits_split (y :: l)) as [D|[ds [c [r [E [D C]]]]]].
    + destruct (N.le_gt_cases (dfold (y :: l) 0) 65535) as [V|V].
      * rewrite loop_digits; [|assumption|reflexivity|lia|assumption]. cbn [rbind]. destruct (m && (dfold (y :: l) 0 =? 0)) eqn:Z; [|left; eexists; reflexivity].
        right. apply andb_true_iff in Z. destruct Z as [-> Z]. eexists. apply (iw_zero s (y :: l) P); [split; [discriminate|exact D]|]. unfold decimal, dfold in *. lia.
      * right. eexists. apply (iw_too_large s (y :: l) [] m); [rewrite app_nil_r; exact P|exact D|exact V].
    + destruct (N.le_gt_cases (dfold ds 0) 65535) as [V|V].
      * right. eexists. rewrite E in P. exact (iw_not_a_digit s ds c r m P D C V).
      * right. eexists. rewrite E in P. exact (iw_too_large s ds (c :: r) m P D V).
Qed.
Lemma id_says : forall s e w, newMorohashiT s = Says e w <-> e = DomainError /\ exists why, id_wrong s why /\ w = id_message s why.
Proof.
  intros s e w. unfold newMorohashiT. split.
  - intro H. destruct (right_or_wrong s) as [[i G]|[why W]].
    + rewrite G in H. discriminate H.
    + rewrite (wrong_get _ _ W) in H. cbn [rbind] in H. assert (X : e = DomainError /\ w = id_message s why) by (generalize dependent (id_message s why); intros; split; congruence).
      destruct X as [-> ->]. split; [reflexivity|]. exists why. auto.
  - intros [-> [why [W ->]]]. rewrite (wrong_get _ _ W). reflexivity.
Qed.
Lemma id_wrong_or_not : forall s, (exists i t, newMorohashiT s = Got (i, t) /\ morohashi s i t) \/ exists why, id_wrong s why.
Proof.
  intro s. destruct (right_or_wrong s) as [[i G]|W]; [left|right; exact W]. exists i, (getIdType s).
  assert (E : newMorohashiT s = Got (i, getIdType s)) by (unfold newMorohashiT; rewrite G; reflexivity). split; [exact E|].
  apply morohashi_iff. rewrite <- newMorohashiT_plain, E. reflexivity.
Qed.

(** ** The Kanji argument *)
Lemma code_iff : forall r, code_text r <->
  (len r <? 4) || (5 <? len r) || ((len r =? 5) && negb (hd 0 r =? 49) && negb (hd 0 r =? 50)) || negb (forallb ishexnumber r) = false.
Proof.
  intro r. split.
  - intros [c [Hd Hl]]. destruct (denotes_hex r c Hd) as [Hh Hc]. rewrite Hh. destruct Hl as [L|[L R]]; rewrite L; [reflexivity|].
    rewrite <- Hc in R. apply (hex_five r L Hh) in R. destruct R as [-> | ->]; reflexivity.
  - rewrite !orb_false_iff, !andb_false_iff, !negb_false_iff, !N.eqb_neq, !N.eqb_eq, !N.ltb_ge. intros [[[L1 L2] L3] Hh].
    assert (Hne : r <> []) by (intro X; rewrite X in L1; unfold len in L1; cbn [length] in L1; lia).
    exists (stoiHex r). split; [exact (hex_denotes r Hne Hh)|].
    destruct (N.eq_dec (len r) 4) as [L|L]; [left; exact L|right]. assert (L5 : len r = 5) by lia. split; [exact L5|].
    apply (hex_five _ L5 Hh). destruct L3 as [[L3|L3]|L3]; [lia|left; exact L3|right; exact L3].
Qed.
Lemma not_numeral : forall r, ~ numeral r -> (match r with [] => true | _ => false end) || negb (allDigits r) = true.
Proof.
  intros r H. destruct r as [|c r]; [reflexivity|]. cbn [orb]. destruct (allDigits (c :: r)) eqn:E; [|reflexivity].
  exfalso. apply H. split; [discriminate|apply allDigits_iff; exact E].
Qed.
Section Arg.
Variable std : exn -> bytes.
Variable d : Data.
(** processKanjiArg with any way to show Kanji *)
Variable one : bytes -> out bytes.
Variable several : list Kanji -> bytes -> bytes -> out bytes.
Definition dispatchT (arg : bytes) : res bytes :=
  if allDigits arg then
    f <~ getNumericIdT (b_ "frequency") arg ;;
    k <~ withText std (findByFrequency d f) ;;
    match k with
    | Some k => withText std (one (kName k))
    | None => Says DomainError (b_ "Kanji not found for frequency '" ++ arg ++ b_ "'")
    end
  else if starts_with arg (b_ "m") then
    id <~ newMorohashiT (tl arg) ;; withText std (several (findByMorohashiId d id) (b_ "Morohashi") (morohashiToString id))
  else if starts_with arg (b_ "n") then
    let id := tl arg in
    if (match id with [] => true | _ => false end) || negb (allDigits id)
    then Says DomainError (b_ "Nelson ID '" ++ id ++ b_ "' is non-numeric")
    else n <~ getNumericIdT (b_ "Nelson ID") id ;; withText std (several (findByNelsonId d n) (b_ "Nelson") id)
  else if starts_with arg (b_ "u") then
    let id := tl arg in
    if (len id <? 4) || (5 <? len id)
       || ((len id =? 5) && negb (hd 0 id =? 49) && negb (hd 0 id =? 50))
       || negb (forallb ishexnumber id) then Says DomainError (b_ "Unicode value '" ++ id ++ b_ "' is invalid")
    else s <~ withText std (toUtf8_code (stoiHex id)) ;; withText std (one s)
  else
    k <~ withText std (isKanji arg true) ;;
    if k : bool then withText std (one arg)
    else Says DomainError (b_ "unrecognized 'kanji' value '" ++ arg ++ b_ "', use -h for help").

Lemma dispatchT_plain : forall a, plain (dispatchT a) = dispatch d one several a.
Proof.
  intro a. unfold dispatchT, dispatch. cbv zeta. destruct (allDigits a).
  { rewrite plain_bind, getNumericIdT_plain. destruct (getNumericId a) as [x|e| |]; cbn [obind]; try reflexivity.
    rewrite plain_bind, withText_plain. destruct (findByFrequency d x) as [[k|]|e| |]; cbn [obind]; try reflexivity. apply withText_plain. }
  destruct (starts_with a (b_ "m")).
  { rewrite plain_bind, newMorohashiT_plain. destruct (newMorohashi (tl a)); cbn [obind]; try reflexivity. apply withText_plain. }
  destruct (starts_with a (b_ "n")).
  { destruct (_ || _); [reflexivity|]. rewrite plain_bind, getNumericIdT_plain. destruct (getNumericId _); cbn [obind]; try reflexivity. apply withText_plain. }
  destruct (starts_with a (b_ "u")).
  { destruct (_ || _); [reflexivity|]. rewrite plain_bind, withText_plain. destruct (toUtf8_code _); cbn [obind]; try reflexivity. apply withText_plain. }
  rewrite plain_bind, withText_plain. destruct (isKanji a true) as [[|]|e| |]; cbn [obind]; try reflexivity. apply withText_plain.
Qed.
Lemma getNumericIdT_digits : forall m s, Forall is_digit s -> s = [] \/ 65535 < decimal s ->
  getNumericIdT m s = Says DomainError (b_ "invalid " ++ m ++ b_ " " ++ quoted s).
Proof.
  intros m s D H. unfold getNumericIdT. rewrite readU16_digits by exact D. unfold quoted. destruct s as [|c r].
  - reflexivity.
  - destruct H as [H|H]; [discriminate|]. replace (65535 <? decimal (c :: r)) with true by lia. reflexivity.
Qed.
Lemma says_dispatch : forall a w, bytes_ok a -> no_nul a -> kanji_says d a w -> dispatchT a = Says DomainError w.
Proof.
  intros a w Hok Hz H. unfold dispatchT. change (b_ "u") with [117]. change (b_ "n") with [110]. change (b_ "m") with [109]. cbv zeta.
  destruct H as [|a Hn Hv|a Hn Hv Hf|r why W|r Hn|r Hn Hv|r Hc|a H1 H2 H3 H4].
  - reflexivity.
  - rewrite (proj2 (allDigits_iff a)) by exact (proj2 Hn). rewrite getNumericIdT_digits; [reflexivity|exact (proj2 Hn)|right; exact Hv].
  - rewrite (proj2 (allDigits_iff a)) by exact (proj2 Hn). unfold getNumericIdT. rewrite readU16_digits by exact (proj2 Hn). destruct Hn as [Hne _].
    destruct a as [|c r]; [congruence|]. replace (65535 <? decimal (c :: r)) with false by lia. cbn [rbind]. rewrite Hf. reflexivity.
  - change (b_ "m") with [109]. cbn [app tl]. replace (allDigits (109 :: r)) with false by reflexivity. rewrite starts_same.
    unfold newMorohashiT. rewrite (wrong_get _ _ W). reflexivity.
  - change (b_ "n") with [110]. cbn [app tl]. replace (allDigits (110 :: r)) with false by reflexivity.
    replace (starts_with (110 :: r) [109]) with false by reflexivity. rewrite starts_same, (not_numeral r Hn). unfold quoted. rewrite <- !app_assoc. reflexivity.
  - change (b_ "n") with [110]. cbn [app tl]. replace (allDigits (110 :: r)) with false by reflexivity.
    replace (starts_with (110 :: r) [109]) with false by reflexivity. rewrite starts_same.
    rewrite (proj2 (allDigits_iff r)) by exact (proj2 Hn). rewrite getNumericIdT_digits; [|exact (proj2 Hn)|right; exact Hv].
    destruct Hn as [Hne _]. destruct r as [|c r]; [congruence|]. reflexivity.
  - change (b_ "u") with [117]. cbn [app tl]. replace (allDigits (117 :: r)) with false by reflexivity.
    replace (starts_with (117 :: r) [109]) with false by reflexivity. replace (starts_with (117 :: r) [110]) with false by reflexivity.
    rewrite starts_same.
    destruct (_ || _ || _ || _) eqn:E; [unfold quoted; rewrite <- !app_assoc; reflexivity|]. exfalso. apply Hc. apply code_iff. exact E.
  - assert (D : allDigits a = false).
    { destruct (allDigits a) eqn:E; [|reflexivity]. exfalso. apply H2. split; [exact H1|apply allDigits_iff; exact E]. }
    assert (Sx : forall x, x = 109 \/ x = 110 \/ x = 117 -> starts_with a [x] = false).
    { intros x Hx. destruct (starts_with a [x]) eqn:E; [|reflexivity]. exfalso. apply H3. apply starts_one in E. exists x, (tl a). auto. }
    rewrite D, !Sx by auto. destruct (is_kanji_any a Hok Hz) as [b [B1 B2]]. rewrite B1. cbn [withText rbind].
    destruct b; [exfalso; destruct (proj1 B2 eq_refl) as [cs [C1 C2]]; exact (H4 cs C1 C2)|]. unfold quoted. rewrite <- !app_assoc. reflexivity.
Qed.
Lemma shownT : forall a x, stands_for d a x -> dispatchT a = withText std (match x with One n => one n | Several w i ks => several ks w i end).
Proof.
  intros a x H. unfold dispatchT. change (b_ "u") with [117]. change (b_ "n") with [110]. change (b_ "m") with [109]. cbv zeta.
  destruct H as [a k Hn Hv Hf|r i t Hm|r Hn Hv|r c Hd Hl Hs|r c Hd Hl Hs|cs Hk].
  - rewrite (proj2 (allDigits_iff a)) by exact (proj2 Hn). unfold getNumericIdT. rewrite readU16_digits by exact (proj2 Hn). destruct Hn as [Hne _].
    destruct a as [|c r]; [congruence|]. replace (65535 <? decimal (c :: r)) with false by lia. cbn [rbind]. rewrite Hf. reflexivity.
  - change (b_ "m") with [109]. cbn [app tl]. replace (allDigits (109 :: r)) with false by reflexivity. rewrite starts_same.
    destruct (id_wrong_or_not r) as [[j [u [G M]]]|[why W]].
    + rewrite G. cbn [rbind]. apply morohashi_iff in M, Hm. replace (j, u) with (i, t) by congruence. reflexivity.
    + exfalso. apply morohashi_iff in Hm. rewrite <- newMorohashiT_plain in Hm. unfold newMorohashiT in Hm. rewrite (wrong_get _ _ W) in Hm. discriminate Hm.
  - change (b_ "n") with [110]. cbn [app tl]. replace (allDigits (110 :: r)) with false by reflexivity.
    replace (starts_with (110 :: r) [109]) with false by reflexivity. rewrite starts_same.
    rewrite (proj2 (allDigits_iff r)) by exact (proj2 Hn). unfold getNumericIdT. rewrite readU16_digits by exact (proj2 Hn). destruct Hn as [Hne _].
    destruct r as [|c r]; [congruence|]. cbn [negb orb]. replace (65535 <? decimal (c :: r)) with false by lia. reflexivity.
  - assert (C : code_text r) by (exists c; auto). apply code_iff in C. destruct (denotes_hex r c Hd) as [Hh Hc].
    change (b_ "u") with [117]. cbn [app tl]. replace (allDigits (117 :: r)) with false by reflexivity.
    replace (starts_with (117 :: r) [109]) with false by reflexivity. replace (starts_with (117 :: r) [110]) with false by reflexivity.
    rewrite starts_same, C. unfold toUtf8_code. rewrite convertToUtf8_enc, Hc, enc_or_repl_scalar by exact Hs. reflexivity.
  - assert (C : code_text r) by (exists c; auto). apply code_iff in C. destruct (denotes_hex r c Hd) as [Hh Hc].
    change (b_ "u") with [117]. cbn [app tl]. replace (allDigits (117 :: r)) with false by reflexivity.
    replace (starts_with (117 :: r) [109]) with false by reflexivity. replace (starts_with (117 :: r) [110]) with false by reflexivity.
    rewrite starts_same, C. unfold toUtf8_code. rewrite convertToUtf8_enc, Hc, enc_or_repl_not by exact Hs. reflexivity.
  - destruct (text_first cs Hk) as [c [r [E Hc]]]. destruct (one_of_chars cs Hk) as [Hch _].
    destruct (is_kanji_any (text cs) (text_ok cs Hch) (text_no_nul cs Hch)) as [b [B1 B2]].
    assert (D : allDigits (text cs) = false).
    { rewrite E. unfold allDigits. cbn [forallb]. unfold isdigit. replace (c <=? 57) with false by lia. rewrite andb_false_r. reflexivity. }
    assert (Sx : forall x, x < 128 -> starts_with (text cs) [x] = false).
    { intros x Hx. rewrite E. cbn [starts_with]. replace (x =? c) with false by lia. reflexivity. }
    rewrite D, !Sx by lia. rewrite B1. cbn [withText rbind]. replace b with true; [reflexivity|]. symmetry. apply B2. exists cs. auto.
Qed.
End Arg.
Lemma argT_dispatch : forall std sort d ucd gd jd a, processKanjiArgT std sort d ucd gd jd a
  = dispatchT std d (fun n => printDetails sort d ucd gd jd n true) (printList sort d ucd gd jd) a.
Proof. reflexivity. Qed.
Lemma arg_dispatch : forall sort d ucd gd jd a, processKanjiArg sort d ucd gd jd a
  = dispatch d (fun n => printDetails sort d ucd gd jd n true) (printList sort d ucd gd jd) a.
Proof. reflexivity. Qed.
Lemma says_not_stands : forall d a w x, bytes_ok a -> no_nul a -> kanji_says d a w -> ~ stands_for d a x.
Proof.
  intros d a w x H1 H2 H3 H4.
  pose proof (says_dispatch (fun _ => []) d (fun _ => Val []) (fun _ _ _ => Val []) a w H1 H2 H3) as A.
  pose proof (dispatchT_plain (fun _ => []) d (fun _ => Val []) (fun _ _ _ => Val []) a) as B. rewrite A in B. cbn [plain] in B.
  rewrite (dispatch_shown d (fun _ => Val []) (fun _ _ _ => Val []) a x H4) in B. destruct x; discriminate B.
Qed.
Lemma stands_or_says : forall d a, bytes_ok a -> no_nul a ->
  (exists x, stands_for d a x) \/ (exists w, kanji_says d a w)
  \/ (numeral a /\ decimal a <= 65535 /\ (forall k, findByFrequency d (decimal a) <> Val k)).
Proof.
  intros d a Hok Hz. destruct a as [|c0 r0] eqn:Ea; [right; left; eexists; apply ks_empty|]. rewrite <- Ea in *.
  assert (Hne : a <> []) by (rewrite Ea; discriminate).
  destruct (allDigits a) eqn:Ed.
  { apply allDigits_iff in Ed. assert (Hn : numeral a) by (split; assumption). destruct (N.le_gt_cases (decimal a) 65535) as [V|V].
    - destruct (findByFrequency d (decimal a)) as [[k|]|e| |] eqn:Ef.
      + left. eexists. exact (sf_frequency d a k Hn V Ef).
      + right; left. eexists. exact (ks_frequency d a Hn V Ef).
      + right; right. repeat split; try assumption. congruence.
      + right; right. repeat split; try assumption. congruence.
      + right; right. repeat split; try assumption. congruence.
    - right; left. eexists. exact (ks_large d a Hn V). }
  assert (Hnn : ~ numeral a) by (intros [_ X]; apply allDigits_iff in X; congruence).
  destruct (starts_with a [109]) eqn:Em.
  { apply starts_one in Em. rewrite Em. destruct (id_wrong_or_not (tl a)) as [[i [t [_ M]]]|[why W]].
    - left. eexists. exact (sf_morohashi d (tl a) i t M).
    - right; left. eexists. exact (ks_morohashi d (tl a) why W). }
  destruct (starts_with a [110]) eqn:En.
  { apply starts_one in En. rewrite En. destruct (((match tl a with [] => true | _ => false end) || negb (allDigits (tl a)))) eqn:X.
    - right; left. eexists. apply (ks_nelson d (tl a)). intros [Y1 Y2]. apply allDigits_iff in Y2. rewrite Y2 in X. destruct (tl a); [congruence|discriminate X].
    - apply orb_false_iff in X. destruct X as [X1 X2]. apply negb_false_iff in X2. apply allDigits_iff in X2.
      assert (Hn : numeral (tl a)) by (split; [destruct (tl a); [discriminate X1|discriminate]|exact X2]).
      destruct (N.le_gt_cases (decimal (tl a)) 65535) as [V|V].
      + left. eexists. exact (sf_nelson d (tl a) Hn V).
      + right; left. eexists. exact (ks_nelson_large d (tl a) Hn V). }
  destruct (starts_with a [117]) eqn:Eu.
  { apply starts_one in Eu. rewrite Eu.
    destruct ((len (tl a) <? 4) || (5 <? len (tl a)) || ((len (tl a) =? 5) && negb (hd 0 (tl a) =? 49) && negb (hd 0 (tl a) =? 50)) || negb (forallb ishexnumber (tl a))) eqn:X.
    - right; left. eexists. apply (ks_unicode d (tl a)). intro Y. apply code_iff in Y. congruence.
    - left. apply code_iff in X. destruct X as [c [Hd Hl]]. destruct (scalarb c) eqn:Es.
      + apply scalarb_spec in Es. eexists. exact (sf_unicode d (tl a) c Hd Hl Es).
      + assert (Hs : ~ scalar c) by (intro Y; apply scalarb_spec in Y; congruence). destruct Hl as [L|[L R]].
        * eexists. exact (sf_surrogate d (tl a) c Hd L Hs).
        * exfalso. apply Hs. unfold scalar. lia. }
  destruct (is_kanji_any a Hok Hz) as [b [_ B]]. destruct b.
  - left. destruct (proj1 B eq_refl) as [cs [C1 C2]]. rewrite C2. eexists. exact (sf_kanji d cs C1).
  - right; left. eexists. apply (ks_other d a Hne Hnn).
    + intros [x [r [E Hx]]]. subst a. assert (F : starts_with (x :: r) [x] = true) by apply starts_same. destruct Hx as [->|[->| ->]]; congruence.
    + intros cs C E. assert (X : false = true) by (apply B; eauto). discriminate X.
Qed.
