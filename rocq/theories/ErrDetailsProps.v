(** Theorems about the messages about ids, strokes and the Kanji argument. *)
From Verif Require Import BaseFacts StringModel StringSpec StringProofs IdsProofs DetailsArg DetailsProps.
From Verif Require Import ErrArgsProofs ErrArgsProps.
From Verif Require Import ErrDetailsProofs ErrDetailsSpec.
From Verif Require Import ErrBase.
Open Scope N_scope.

(** C125: apart from the texts these are the functions of C29, C30 and C87 *)
Theorem C125_same : (forall s, plain (newMorohashiT s) = newMorohashi s)
  /\ (forall v, plain (newStrokesT v) = newStrokes v) /\ (forall v w, plain (newStrokes2T v w) = newStrokes2 v w)
  /\ forall std sort d ucd gd jd a, plain (processKanjiArgT std sort d ucd gd jd a) = processKanjiArg sort d ucd gd jd a.
Proof.
  split; [exact newMorohashiT_plain|]. split; [exact newStrokesT_plain|]. split; [exact newStrokes2T_plain|].
  intros std sort d ucd gd jd a. rewrite argT_dispatch, arg_dispatch. apply dispatchT_plain.
Qed.
Print Assumptions C125_same.

(** C125: a Morohashi id is refused exactly when something is wrong with it, and the message says what comes first *)
Theorem C125_id : forall s e w, newMorohashiT s = Says e w <-> e = DomainError /\ exists why, id_wrong s why /\ w = id_message s why.
Proof. exact id_says. Qed.
Print Assumptions C125_id.
(** C125: every other text is a Morohashi id, and no text has two things wrong *)
Theorem C125_id_or_message : forall s, (exists i t, morohashi s i t) \/ exists why, id_wrong s why.
Proof. intro s. destruct (id_wrong_or_not s) as [[i [t [_ H]]]|H]; [left; eauto|right; exact H]. Qed.
Print Assumptions C125_id_or_message.
Lemma message_inj : forall s a b, id_message s a = id_message s b -> a = b.
Proof. intros s a b H. unfold id_message in H. apply app_inv_head in H. apply app_inv_head in H. apply app_inv_head in H. exact H. Qed.
Theorem C125_one_fault : forall s a, id_wrong s a -> (forall b, id_wrong s b -> b = a) /\ forall i t, ~ morohashi s i t.
Proof.
  intros s a A. assert (HA : newMorohashiT s = Says DomainError (id_message s a)) by (apply id_says; split; [reflexivity|eauto]). split.
  - intros b B. apply message_inj with s. assert (HB : newMorohashiT s = Says DomainError (id_message s b)) by (apply id_says; split; [reflexivity|eauto]).
    generalize dependent (id_message s a). intros. congruence.
  - intros i t M. apply morohashi_iff in M. rewrite <- newMorohashiT_plain, HA in M. discriminate M.
Qed.
Print Assumptions C125_one_fault.
Example C125_id_case : id_wrong (b_ "HP") (b_ "is non-numeric") /\ id_wrong (b_ "H") (b_ "is invalid") /\ id_wrong (b_ "000''") (b_ "can't be zero")
  /\ id_wrong (b_ "65536x") (b_ "exceeds max") /\ id_wrong (b_ "6553x6") (b_ "is non-numeric")
  /\ newMorohashiT (b_ "65536x") = Says DomainError (b_ "Morohashi ID '65536x' exceeds max") /\ morohashi (b_ "0065535P") 65535 Prime.
Proof.
  assert (D : forall s, allDigits s = true -> Forall is_digit s) by (intros s H; apply allDigits_iff; exact H).
  split; [|split; [|split; [|split; [|split; [|split]]]]].
  - apply (iw_not_a_digit (b_ "HP") [] 72 [] true); [|constructor|unfold is_digit; lia|vm_compute; discriminate].
    apply (ip_prime [72]). intros r E. destruct r as [|x [|y r]]; discriminate E.
  - apply iw_nothing. apply (ip_supplemental []). apply no_mark_prime. reflexivity.
  - apply (iw_zero _ (b_ "000")); [exact (ip_double_alt (b_ "000"))|split; [discriminate|apply D; reflexivity]|reflexivity].
  - apply (iw_too_large _ (b_ "65536") (b_ "x") false); [|apply D; reflexivity|reflexivity].
    apply ip_plain; [|intros r E; discriminate E]. apply no_mark_prime. reflexivity.
  - apply (iw_not_a_digit _ (b_ "6553") 120 (b_ "6") false); [|apply D; reflexivity|unfold is_digit; lia|vm_compute; discriminate].
    apply ip_plain; [|intros r E; discriminate E]. apply no_mark_prime. reflexivity.
  - vm_compute. reflexivity.
  - apply (m_prime (b_ "0065535") (b_ "P")); [split; [discriminate|apply D; reflexivity]|split; vm_compute; discriminate|left; reflexivity].
Qed.

(** C125: the messages about strokes give the number that is out of range, in decimal *)
Theorem C125_strokes : forall v e m, newStrokesT v = Says e m <->
  ~ (1 <= v <= 64) /\ e = RangeError /\ exists n, written n v /\ m = b_ "strokes " ++ quoted n ++ b_ " out of range".
Proof.
  intros v e m. pose proof (to_string_written v) as W. unfold newStrokesT, MaxStrokes.
  assert (X : rangeError (A := N * N) v [] = Says RangeError (b_ "strokes " ++ quoted (to_string v) ++ b_ " out of range")).
  { unfold rangeError, quoted. rewrite <- !app_assoc. reflexivity. }
  destruct ((v =? 0) || (64 <? v)) eqn:E.
  - rewrite X. split.
    + intro H. split; [lia|]. assert (Y : e = RangeError /\ m = b_ "strokes " ++ quoted (to_string v) ++ b_ " out of range").
      { clear X. generalize dependent (b_ "strokes " ++ quoted (to_string v) ++ b_ " out of range"). intros. split; congruence. }
      destruct Y as [-> ->]. split; [reflexivity|]. exists (to_string v). auto.
    + intros [_ [-> [n [Hn ->]]]]. rewrite (written_one _ _ _ Hn W). reflexivity.
  - split; [discriminate|]. intros [H _]. lia.
Qed.
Print Assumptions C125_strokes.
Theorem C125_two_strokes : forall v w e m, newStrokes2T v w = Says e m <->
  (exists n, ~ (2 <= v <= 64) /\ e = RangeError /\ written n v /\ m = b_ "strokes " ++ quoted n ++ b_ " out of range")
  \/ (exists n, 2 <= v <= 64 /\ ~ (3 <= w <= 33) /\ e = RangeError /\ written n w /\ m = b_ "variant strokes " ++ quoted n ++ b_ " out of range")
  \/ (exists n, 3 <= w <= 33 /\ v = w /\ e = DomainError /\ written n v /\ m = b_ "strokes and variant strokes are the same " ++ quoted n).
Proof.
  intros v w e m. pose proof (to_string_written v) as V. pose proof (to_string_written w) as W. unfold newStrokes2T, MaxStrokes, MaxVariant.
  assert (X1 : rangeError (A := N * N) v [] = Says RangeError (b_ "strokes " ++ quoted (to_string v) ++ b_ " out of range")).
  { unfold rangeError, quoted. rewrite <- !app_assoc. reflexivity. }
  assert (X2 : rangeError (A := N * N) w (b_ "variant ") = Says RangeError (b_ "variant strokes " ++ quoted (to_string w) ++ b_ " out of range")).
  { unfold rangeError, quoted. rewrite <- !app_assoc. reflexivity. }
  assert (X3 : Says (A := N * N) DomainError (b_ "strokes and variant strokes are the same '" ++ to_string v ++ b_ "'")
               = Says DomainError (b_ "strokes and variant strokes are the same " ++ quoted (to_string v))) by reflexivity.
  rewrite X1, X2, X3. clear X1 X2 X3.
  assert (K : forall a b, Says (A := N * N) a b = Says e m -> e = a /\ m = b) by (intros a b H; split; congruence).
  destruct ((v <? 2) || (64 <? v)) eqn:E1; [|destruct ((w <? 3) || (33 <? w)) eqn:E2; [|destruct (v =? w) eqn:E3]].
  - split.
    + intro H. destruct (K _ _ H) as [-> ->]. left. exists (to_string v). split; [lia|]. split; [reflexivity|]. split; [exact V|reflexivity].
    + intros [[n [_ [-> [Hn ->]]]]|[[n [H _]]|[n [H [E _]]]]]; [rewrite (written_one _ _ _ Hn V); reflexivity|lia|lia].
  - split.
    + intro H. destruct (K _ _ H) as [-> ->]. right. left. exists (to_string w). split; [lia|]. split; [lia|]. split; [reflexivity|]. split; [exact W|reflexivity].
    + intros [[n [H _]]|[[n [_ [_ [-> [Hn ->]]]]]|[n [H [E _]]]]]; [lia|rewrite (written_one _ _ _ Hn W); reflexivity|lia].
  - split.
    + intro H. destruct (K _ _ H) as [-> ->]. right. right. exists (to_string v). split; [lia|]. split; [lia|]. split; [reflexivity|]. split; [exact V|reflexivity].
    + intros [[n [H _]]|[[n [_ [H _]]]|[n [H [E [-> [Hn ->]]]]]]]; [lia|lia|rewrite (written_one _ _ _ Hn V); reflexivity].
  - split; [discriminate|]. intros [[n [H _]]|[[n [_ [H _]]]|[n [H [E _]]]]]; lia.
Qed.
Print Assumptions C125_two_strokes.
Example C125_strokes_case : newStrokesT 65 = Says RangeError (b_ "strokes '65' out of range")
  /\ newStrokes2T 10 34 = Says RangeError (b_ "variant strokes '34' out of range")
  /\ newStrokes2T 10 10 = Says DomainError (b_ "strokes and variant strokes are the same '10'").
Proof. repeat split; vm_compute; reflexivity. Qed.

(** C125: an argument that stands for nothing is answered with its message *)
Theorem C125_argument : forall std sort d ucd gd jd a w, bytes_ok a -> no_nul a -> kanji_says d a w ->
  processKanjiArgT std sort d ucd gd jd a = Says DomainError w.
Proof. intros. rewrite argT_dispatch. apply says_dispatch; assumption. Qed.
Print Assumptions C125_argument.
(** C125: every argument stands for something or has one message, and not both; only a number for which findByFrequency is undefined
    (see C34) has neither *)
Theorem C125_message_or_shown : forall d a, bytes_ok a -> no_nul a ->
  ((exists x, stands_for d a x) /\ forall w, ~ kanji_says d a w)
  \/ ((forall x, ~ stands_for d a x) /\ exists w, kanji_says d a w /\ forall w', kanji_says d a w' -> w' = w)
  \/ (numeral a /\ decimal a <= 65535 /\ (forall k, findByFrequency d (decimal a) <> Val k)).
Proof.
  intros d a H1 H2. destruct (stands_or_says d a H1 H2) as [[x X]|[[w W]|X]]; [left|right; left|right; right; exact X].
  - split; [eauto|]. intros w W. exact (says_not_stands d a w x H1 H2 W X).
  - split; [intros x X; exact (says_not_stands d a w x H1 H2 W X)|]. exists w. split; [exact W|]. intros w' W'.
    pose proof (says_dispatch (fun _ => []) d (fun _ => Val []) (fun _ _ _ => Val []) a w H1 H2 W) as A.
    pose proof (says_dispatch (fun _ => []) d (fun _ => Val []) (fun _ _ _ => Val []) a w' H1 H2 W') as B. congruence.
Qed.
Print Assumptions C125_message_or_shown.
(** C125: an argument that stands for something gets no message of its own: what is thrown is thrown while details are printed *)
Theorem C125_shown : forall std sort d ucd gd jd a x, stands_for d a x ->
  processKanjiArgT std sort d ucd gd jd a
  = withText std (match x with
                  | One n => printDetails sort d ucd gd jd n true
                  | Several w i ks => printList sort d ucd gd jd ks w i
                  end).
Proof.
  intros std sort d ucd gd jd a x H.
  rewrite argT_dispatch. rewrite (shownT std _ _ _ _ _ H). destruct x; reflexivity.
Qed.
Print Assumptions C125_shown.
Notation argT1 := (processKanjiArgT (fun _ => []) bySuffix data1 ucd1 groups1 jukugo1).
Example C125_case : argT1 (b_ "2") = Says DomainError (b_ "Kanji not found for frequency '2'")
  /\ argT1 [] = Says DomainError (b_ "invalid frequency ''")
  /\ argT1 (b_ "65536") = Says DomainError (b_ "invalid frequency '65536'")
  /\ argT1 (b_ "m5x") = Says DomainError (b_ "Morohashi ID '5x' is non-numeric")
  /\ argT1 (b_ "n") = Says DomainError (b_ "Nelson ID '' is non-numeric")
  /\ argT1 (b_ "n70000") = Says DomainError (b_ "invalid Nelson ID '70000'")
  /\ argT1 (b_ "u30000") = Says DomainError (b_ "Unicode value '30000' is invalid")
  /\ argT1 (b_ "x1") = Says DomainError (b_ "unrecognized 'kanji' value 'x1', use -h for help")
  /\ kanji_says data1 (b_ "u4E0") (b_ "Unicode value '4E0' is invalid")
  /\ plain (argT1 (b_ "u4e00")) = arg1 (b_ "1").
Proof.
  repeat split; try (vm_compute; reflexivity).
  apply (ks_unicode data1 (b_ "4E0")). intros [c [_ [H|[H _]]]]; vm_compute in H; discriminate H.
Qed.
