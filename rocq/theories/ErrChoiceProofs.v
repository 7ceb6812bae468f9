(** Proofs about the messages about choices. *)
From Verif Require Import BaseFacts ChoiceProofs ErrMainQuiet ErrChoiceSpec ErrUcdModel.
From Verif Require Import ErrBase.
Open Scope N_scope.
Arguments N.mul : simpl never. Arguments N.add : simpl never. Arguments N.sub : simpl never.

Definition bytes_only (m : Choices) : Prop := Forall (fun e => fst e < 256) m.

(** ** Hexadecimal digits *)
Definition digits : bytes := b_ "0123456789abcdef".
Definition hexOf (c : N) : option bytes :=
  match nth_error digits (N.to_nat (c / 16)), nth_error digits (N.to_nat (c mod 16)) with Some a, Some b => Some [a; b] | _, _ => None end.
Lemma hex_checked : forallb (fun n => let c := N.of_nat n in match toHex 1 c NoBrackets Lower 0, hexOf c with Val h, Some h' => beq h h' | _, _ => false end) (seq 0 256) = true.
Proof. vm_compute. reflexivity. Qed.
Lemma hex_total : forall c, c < 256 -> exists h, toHex 1 c NoBrackets Lower 0 = Val h /\ hex_text c h.
Proof.
  intros c H. pose proof hex_checked as X. rewrite forallb_forall in X. specialize (X (N.to_nat c)). cbv zeta in X. rewrite N2Nat.id in X.
  assert (I : In (N.to_nat c) (seq 0 256)) by (apply in_seq; lia). specialize (X I). unfold hexOf in X.
  destruct (toHex 1 c NoBrackets Lower 0) as [h|e| |]; try discriminate X. exists h. split; [reflexivity|].
  destruct (nth_error digits (N.to_nat (c / 16))) as [a|] eqn:A; [|discriminate X]. destruct (nth_error digits (N.to_nat (c mod 16))) as [b|] eqn:B0; [|discriminate X].
  apply beq_eq in X. subst h. exists a, b, (N.to_nat (c / 16)), (N.to_nat (c mod 16)). split; [reflexivity|]. split; [exact A|]. split; [exact B0|].
  rewrite !N2Nat.id. apply N.div_mod. lia.
Qed.
Lemma digits_once : forall x y a, nth_error digits x = Some a -> nth_error digits y = Some a -> x = y.
Proof.
  intros x y a X Y. assert (D : NoDup digits).
  { unfold digits. vm_compute. repeat (constructor; [intros K; cbn in K; repeat destruct K as [K|K]; try discriminate K; exact K|]). constructor. }
  pose proof (proj1 (NoDup_nth_error digits) D x y) as K. apply K; [|congruence]. apply nth_error_Some. congruence.
Qed.
Lemma hex_fun : forall c h h', hex_text c h -> hex_text c h' -> h = h'.
Proof.
  intros c h h' (a & b & x & y & -> & A & B0 & E) (a' & b' & x' & y' & -> & A' & B' & E').
  assert (X : (x < 16 /\ y < 16 /\ x' < 16 /\ y' < 16)%nat).
  { change 16%nat with (List.length (b_ "0123456789abcdef")). repeat split; apply nth_error_Some; congruence. }
  assert (x = x' /\ y = y') as [-> ->] by lia. congruence.
Qed.
Lemma check_says : forall c msg, c < 256 -> ~ printable c -> exists w, checkPrintableT c msg = Says DomainError w /\ not_printable msg c w.
Proof.
  intros c msg H P. unfold checkPrintableT. replace ((c <? 32) || (126 <? c)) with true by (unfold printable in P; lia).
  destruct (hex_total c H) as (h & -> & X). cbn [quiet rbind]. eexists. split; [reflexivity|]. split; [exact P|]. exists h. split; [exact X|reflexivity].
Qed.
Lemma check_got : forall c msg, printable c -> checkPrintableT c msg = Got tt.
Proof. intros c msg P. unfold checkPrintableT. replace ((c <? 32) || (126 <? c)) with false by (unfold printable in P; lia). reflexivity. Qed.
Lemma printable_dec : forall c, printable c \/ ~ printable c.
Proof. intro c. unfold printable. lia. Qed.
Lemma not_printable_fun : forall msg c w w', not_printable msg c w -> not_printable msg c w' -> w = w'.
Proof. intros msg c w w' (_ & h & H & ->) (_ & h' & H' & ->). rewrite (hex_fun _ _ _ H H'). reflexivity. Qed.
Lemma check_iff : forall c msg e w, c < 256 -> checkPrintableT c msg = Says e w <-> e = DomainError /\ not_printable msg c w.
Proof.
  intros c msg e w H. destruct (printable_dec c) as [P|P].
  - rewrite (check_got c msg P). split; [discriminate|]. intros [_ [Q _]]. destruct (Q P).
  - destruct (check_says c msg H P) as (w' & -> & W). split; [intro E; assert (e = DomainError /\ w = w') as [-> ->] by (split; congruence); auto|].
    intros [-> W']. rewrite (not_printable_fun _ _ _ _ W W'). reflexivity.
Qed.
Lemma check_same : forall c msg, c < 256 -> plain (checkPrintableT c msg) = checkPrintableAscii c.
Proof.
  intros c msg H. destruct (printable_dec c) as [P|P]; [rewrite (check_got c msg P), (check_ok c P); reflexivity|].
  destruct (check_says c msg H P) as (w & -> & _). rewrite (check_bad c P). reflexivity.
Qed.

(** ** The order of char *)
Section Choices.
Variable signed : bool.
Definition precedes (x y : N * bytes) : Prop := (char_value signed (fst x) < char_value signed (fst y))%Z.
Lemma filter_sorted : forall A (R : A -> A -> Prop) f l, StronglySorted R l -> StronglySorted R (filter f l).
Proof.
  intros A R f l H. induction H as [|x l H IH F]; [constructor|]. cbn [filter]. destruct (f x); [|exact IH]. constructor; [exact IH|].
  rewrite Forall_forall in *. intros y Y. apply filter_In in Y. apply F. exact (proj1 Y).
Qed.
Lemma app_sorted : forall A (R : A -> A -> Prop) l r, StronglySorted R l -> StronglySorted R r -> (forall x y, In x l -> In y r -> R x y) -> StronglySorted R (l ++ r).
Proof.
  intros A R l r H Hr C. induction H as [|x l H IH F]; [exact Hr|]. cbn [app]. constructor; [apply IH; intros; apply C; [right|]; assumption|].
  apply Forall_app. split; [exact F|]. apply Forall_forall. intros y Y. apply C; [left; reflexivity|exact Y].
Qed.
Lemma map_sorted : forall (m : Choices), is_map m -> StronglySorted (fun x y => fst x < fst y) m.
Proof.
  intros m. unfold is_map. induction m as [|e m IH]; intro H; [constructor|]. cbn [map] in H. inversion H as [|k l H1 H2]; subst. constructor; [exact (IH H1)|].
  rewrite Forall_forall in *. intros y Y. apply H2. apply in_map. exact Y.
Qed.
Lemma sorted_imp : forall A (R Q : A -> A -> Prop) l, (forall x y, In x l -> In y l -> R x y -> Q x y) -> StronglySorted R l -> StronglySorted Q l.
Proof.
  intros A R Q l. induction l as [|x l IH]; intros H0 H; [constructor|]. inversion H as [|y l' H1 H2]; subst. constructor.
  - apply IH; [intros; apply H0; [right; assumption|right; assumption|assumption]|exact H1].
  - rewrite Forall_forall in *. intros y Y. apply H0; [left; reflexivity|right; exact Y|exact (H2 y Y)].
Qed.
Lemma order_in : forall m e, In e (charOrder signed m) <-> In e m.
Proof.
  intros m e. unfold charOrder. destruct signed; [|tauto]. rewrite in_app_iff, !filter_In. split; [tauto|]. intro H.
  destruct (128 <=? fst e) eqn:E; [left; auto|right]. split; [exact H|lia].
Qed.
Lemma order_sorted : forall m, is_map m -> bytes_only m -> StronglySorted precedes (charOrder signed m).
Proof.
  intros m H Bo. apply map_sorted in H. unfold bytes_only in Bo. rewrite Forall_forall in Bo. unfold charOrder, precedes, char_value. destruct signed; cbn [andb].
  - apply app_sorted.
    + apply (sorted_imp _ (fun x y : N * bytes => fst x < fst y)); [|apply filter_sorted; exact H]. intros x y X Y Q. apply filter_In in X, Y. destruct X as [_ X], Y as [_ Y]. rewrite X, Y. lia.
    + apply (sorted_imp _ (fun x y : N * bytes => fst x < fst y)); [|apply filter_sorted; exact H]. intros x y X Y Q. apply filter_In in X, Y. destruct X as [_ X], Y as [_ Y].
      replace (128 <=? fst x) with false by lia. replace (128 <=? fst y) with false by lia. lia.
    + intros x y X Y. apply filter_In in X, Y. destruct X as [X1 X], Y as [Y1 Y]. specialize (Bo x X1). rewrite X. replace (128 <=? fst y) with false by lia. lia.
  - apply (sorted_imp _ (fun x y : N * bytes => fst x < fst y)); [|exact H]. intros x y _ _ Q. cbn beta. lia.
Qed.
Lemma order_printable : forall m, (forall e, In e m -> printable (fst e)) -> charOrder signed m = m.
Proof.
  intros m H. unfold charOrder. destruct signed; [|reflexivity].
  assert (A : filter (fun e => 128 <=? fst e) m = [] /\ filter (fun e => fst e <? 128) m = m).
  { induction m as [|e m IH]; [auto|]. destruct IH as [I1 I2]; [intros; apply H; right; assumption|]. cbn [filter]. pose proof (H e (or_introl eq_refl)) as P. unfold printable in P.
    replace (128 <=? fst e) with false by lia. replace (fst e <? 128) with true by lia. rewrite I1, I2. auto. }
  destruct A as [-> ->]. reflexivity.
Qed.

(** ** The prompt *)
Lemma add_got : forall m first r prev p, (forall e, In e m -> printable (fst e)) -> addLoopT first r prev m p = quiet (addLoop first r prev m p).
Proof.
  induction m as [|[c d] m IH]; intros first r prev p H; [reflexivity|]. cbn [addLoopT addLoop]. pose proof (H (c, d) (or_introl eq_refl)) as P. cbn [fst] in P.
  rewrite (check_got c _ P), (check_ok c P). cbn [rbind obind]. assert (H' : forall e, In e m -> printable (fst e)) by (intros; apply H; right; assumption).
  destruct d; [destruct r as [s|]; [destruct (1 <? c - prev)|]|]; apply IH; exact H'.
Qed.
Lemma add_says : forall m first r prev p, StronglySorted precedes m -> bytes_only m -> (exists e, In e m /\ ~ printable (fst e)) ->
  exists c w, In c (map fst m) /\ (forall e, In e m -> ~ printable (fst e) -> (char_value signed c <= char_value signed (fst e))%Z) /\ not_printable (b_ "option") c w
    /\ addLoopT first r prev m p = Says DomainError w.
Proof.
  induction m as [|[c d] m IH]; intros first r prev p So Bo [e [He P]]; [destruct He|]. inversion So as [|x l S1 S2]; subst. inversion Bo as [|x l B1 B2]; subst. cbn [fst] in B1. cbn [addLoopT].
  destruct (printable_dec c) as [Pc|Pc].
  - rewrite (check_got c _ Pc). cbn [rbind]. assert (X : exists e, In e m /\ ~ printable (fst e)).
    { exists e. split; [|exact P]. destruct He as [<-|He]; [destruct (P Pc)|exact He]. }
    assert (Y : forall first r prev p, exists c0 w, In c0 (map fst ((c, d) :: m)) /\ (forall e, In e ((c, d) :: m) -> ~ printable (fst e) -> (char_value signed c0 <= char_value signed (fst e))%Z)
      /\ not_printable (b_ "option") c0 w /\ addLoopT first r prev m p = Says DomainError w).
    { intros first' r' prev' p'. destruct (IH first' r' prev' p' S1 B2 X) as (c0 & w & I1 & I2 & I3 & I4). exists c0, w. split; [right; exact I1|]. split; [|split; [exact I3|exact I4]].
      intros x [<-|Hx] Px; [destruct (Px Pc)|exact (I2 x Hx Px)]. }
    destruct d; [destruct r as [s|]; [destruct (1 <? c - prev)|]|]; apply Y.
  - destruct (check_says c (b_ "option") B1 Pc) as (w & -> & W). exists c, w. split; [left; reflexivity|]. split; [|split; [exact W|reflexivity]].
    intros x [<-|Hx] _; [apply Z.le_refl|]. rewrite Forall_forall in S2. specialize (S2 x Hx). unfold precedes in S2. cbn [fst] in S2. lia.
Qed.

(** ** Requests *)
Lemma says_fun : forall q u m def w w', bytes_only m -> (forall c d, q = Some (c, d) -> c < 256) -> choice_says signed q u m def w -> choice_says signed q u m def w' -> w = w'.
Proof.
  intros q u m def w w' Bo Hq H H'.
  assert (Ok : forall c, allowed q u m c -> c < 256).
  { intros c [d [A|[_ A]]]; [|exact (Hq _ _ A)]. unfold bytes_only in Bo. rewrite Forall_forall in Bo. exact (Bo _ A). }
  destruct H as [c d Q I|Q A|c w Q A F N0|c Q A P D K]; destruct H' as [c' d' Q' I'|Q' A'|c' w' Q' A' F' N'|c' Q' A' P' D' K'];
    try (exfalso; match goal with X : quit_free _ _, Y : q = Some _, Z : In _ _ |- _ => exact (X _ _ Y Z) end).
  - congruence.
  - reflexivity.
  - destruct (A _ A').
  - destruct A' as [x X]. destruct (A _ X).
  - destruct (A' _ A).
  - assert (E : c = c').
    { pose proof (F _ A' (proj1 N')) as L1. pose proof (F' _ A (proj1 N0)) as L2. pose proof (Ok _ A) as O1. pose proof (Ok _ A') as O2.
      unfold char_value in *. destruct signed; cbn [andb] in *; [|lia]. destruct (128 <=? c) eqn:E1, (128 <=? c') eqn:E2; lia. }
    subst c'. exact (not_printable_fun _ _ _ _ N0 N').
  - destruct (proj1 N0 (P' _ A)).
  - destruct A as [x X]. destruct (A' _ X).
  - destruct (proj1 N' (P _ A')).
  - congruence.
Qed.
Lemma prepare_cases : forall q msg u m def, is_map m -> bytes_only m -> (forall c d, q = Some (c, d) -> c < 256) ->
  (exists w, prepareT signed q msg u m def = Says DomainError w /\ choice_says signed q u m def w)
  \/ (exists x, prepareT signed q msg u m def = Got x /\ prepare q msg u m def = Val x /\ valid_request q u m def).
Proof.
  intros q msg u m def Hm Bo Hq. unfold prepareT.
  destruct (match q with Some (c, _) => hasKey c m | None => false end) eqn:K.
  { left. destruct q as [[c d]|]; [|discriminate]. rewrite K. cbn [rbind]. eexists. split; [reflexivity|]. apply (cs_quit _ _ _ _ _ c d eq_refl). apply hasKey_iff. exact K. }
  assert (V1 : quit_free q m) by (intros c d -> H; apply hasKey_iff in H; congruence).
  assert (E : (match q with Some (c, d) => if hasKey c m then Says DomainError (b_ "quit option '" ++ [c] ++ AlreadyInChoices) else Got (if u then insertKey c d m else m) | None => Got m end) = Got (all_choices q u m)).
  { destruct q as [[c d]|]; [rewrite K|]; reflexivity. }
  rewrite E. cbn [rbind]. clear E. pose proof (all_map q u m Hm V1) as Hall.
  assert (Ball : bytes_only (all_choices q u m)).
  { apply Forall_forall. intros e He. apply all_offered in He. destruct He as [He|[_ He]]; [unfold bytes_only in Bo; rewrite Forall_forall in Bo; exact (Bo e He)|]. destruct e as [c d]. exact (Hq c d He). }
  assert (Al : forall c, In c (map fst (all_choices q u m)) <-> allowed q u m c) by (intro c; apply all_allowed).
  destruct (all_choices q u m) as [|e0 l0] eqn:EA.
  { left. eexists. split; [reflexivity|]. apply cs_none; [exact V1|]. intros c C. apply Al in C. destruct C. }
  rewrite <- EA in *. assert (NE : exists c, allowed q u m c) by (exists (fst e0); apply Al; rewrite EA; left; reflexivity). clear e0 l0 EA.
  destruct (forall_or_not (all_choices q u m)) as [P|P].
  - assert (P' : forall e, In e (all_choices q u m) -> printable (fst e)) by (intros e He; rewrite Forall_forall in P; apply P; apply in_map; exact He).
    assert (P2 : forall c, allowed q u m c -> printable c) by (intros c C; apply Al in C; rewrite Forall_forall in P; exact (P c C)).
    rewrite (order_printable _ P'), (add_got _ _ _ _ _ P').
    destruct (match def with Some d => negb (hasKey d (all_choices q u m)) | None => false end) eqn:D.
    + left. destruct def as [d|]; [|discriminate]. apply negb_true_iff in D.
      destruct (add_groups (all_choices q u m) Hall P) as [[gs [_ [_ A3]]] _]. cbv zeta. rewrite (proj2 (A3 0 _)). cbn [quiet rbind]. rewrite D.
      eexists. split; [reflexivity|]. apply cs_default; [exact V1|exact NE|exact P2|reflexivity|]. intro C. apply Al in C. apply hasKey_iff in C. congruence.
    + right. assert (V : valid_request q u m def).
      { split; [exact V1|]. split; [exact NE|]. split; [exact P2|]. intros c ->. apply negb_false_iff in D. apply hasKey_iff in D. apply Al. exact D. }
      destruct (prepare_ok q msg u m def Hm V) as (gs & _ & _ & G). eexists. split; [|split; [exact G|exact V]].
      unfold prepare in G. destruct (match q with Some (c, d) => if hasKey c m then Throw DomainError else Val (if u then insertKey c d m else m) | None => Val m end) as [m0|e| |] eqn:Q; cbn [obind] in G; try discriminate G.
      assert (m0 = all_choices q u m) as ->.
      { unfold all_choices. destruct q as [[c d]|]; [rewrite K in Q|]; congruence. }
      destruct (all_choices q u m) as [|e0 l0] eqn:EA; [discriminate G|]. cbv zeta in *. unfold add in G.
      destruct (addLoop true None 0 (e0 :: l0) (msg ++ match msg with [] => b_ "(" | _ :: _ => b_ " (" end)) as [p|e| |]; cbn [obind quiet rbind] in *; try discriminate G.
      destruct def as [d|]; [destruct (hasKey d (e0 :: l0)); [|discriminate G]|]; exact (f_equal (@quiet _) G).
  - left. destruct P as (x & X1 & X2). apply in_map_iff in X1. destruct X1 as (e & <- & X1).
    destruct (add_says (charOrder signed (all_choices q u m)) true None 0 (msg ++ match msg with [] => b_ "(" | _ :: _ => b_ " (" end)) as (c & w & I1 & I2 & I3 & I4).
    + apply order_sorted; assumption.
    + apply Forall_forall. intros y Y. apply (proj1 (order_in _ _)) in Y. unfold bytes_only in Ball. rewrite Forall_forall in Ball. exact (Ball y Y).
    + exists e. split; [apply (proj2 (order_in _ _)); exact X1|exact X2].
    + exists w. split; [cbv zeta; rewrite I4; reflexivity|]. apply (cs_option _ _ _ _ _ c w V1).
      * apply Al. apply in_map_iff in I1. destruct I1 as (y & <- & Y). apply (proj1 (order_in _ _)) in Y. apply in_map. exact Y.
      * intros c' C' P'. apply Al in C'. apply in_map_iff in C'. destruct C' as (y & <- & Y). apply (I2 y); [apply (proj2 (order_in _ _)); exact Y|exact P'].
      * exact I3.
Qed.
Lemma ask_quiet : forall f m def p line i w, nothrow (askLoop f m def p line i w).
Proof.
  induction f as [|f IH]; intros; cbn [askLoop]; [apply nt_fuel|]. cbv zeta. destruct (getline i line) as [line' i']. destruct line' as [|c [|c2 r]]; destruct def; try apply nt_val; try apply IH;
    (destruct (hasKey c m); [apply nt_val|apply IH]).
Qed.
Lemma get_says : forall f q msg u m def i e w, is_map m -> bytes_only m -> (forall c d, q = Some (c, d) -> c < 256) ->
  getT signed f q msg u m def i = Says e w <-> e = DomainError /\ choice_says signed q u m def w.
Proof.
  intros f q msg u m def i e w Hm Bo Hq. unfold getT. destruct (prepare_cases q msg u m def Hm Bo Hq) as [(w' & E & C)|([m' p] & E & _ & V)]; rewrite E; cbn [rbind].
  - split; [intro X; assert (e = DomainError /\ w = w') as [-> ->] by (split; congruence); auto|]. intros [-> X]. rewrite (says_fun _ _ _ _ _ _ Bo Hq X C). reflexivity.
  - split.
    + intro X. destruct (askLoop f m' def p [] i []) as [y|e'| |] eqn:Q; cbn [quiet] in X; try discriminate X. destruct (ask_quiet _ _ _ _ _ _ _ _ Q).
    + intros [_ X]. exfalso. destruct V as (V1 & V2 & V3 & V4). destruct X as [c d Q I|Q A|c w Q A F N0|c Q A P D K]; [exact (V1 _ _ Q I)|destruct V2 as [x X]; exact (A _ X)|exact (proj1 N0 (V3 _ A))|exact (K (V4 _ D))].
Qed.
Lemma quiet_plain : forall A (x : out A), plain (quiet x) = x.
Proof. intros A [v|e| |]; reflexivity. Qed.
Lemma says_invalid : forall q u m def w, choice_says signed q u m def w -> ~ valid_request q u m def.
Proof.
  intros q u m def w X (V1 & V2 & V3 & V4). destruct X as [c d Q I|Q A|c w Q A F N0|c Q A P D K]; [exact (V1 _ _ Q I)|destruct V2 as [x X]; exact (A _ X)|exact (proj1 N0 (V3 _ A))|exact (K (V4 _ D))].
Qed.
Lemma get_same : forall f q msg u m def i, is_map m -> bytes_only m -> (forall c d, q = Some (c, d) -> c < 256) -> plain (getT signed f q msg u m def i) = ChoiceModel.get f q msg u m def i.
Proof.
  intros f q msg u m def i Hm Bo Hq. unfold getT, ChoiceModel.get. destruct (prepare_cases q msg u m def Hm Bo Hq) as [(w & E & C)|([m' p] & E & P & _)]; rewrite E; cbn [rbind].
  - rewrite (prepare_bad q msg u m def Hm (says_invalid _ _ _ _ _ C)). reflexivity.
  - rewrite P. cbn [obind]. apply quiet_plain.
Qed.

(** ** Ranges *)
Lemma range_same : forall n c m, plain (addRangeT n c m) = addRange n c m.
Proof. induction n as [|n IH]; intros c m; [reflexivity|]. cbn [addRangeT addRange]. destruct (hasKey c m); [reflexivity|apply IH]. Qed.
Lemma range_taken : forall n c m, is_map m -> (exists k, (k < n)%nat /\ In (c + N.of_nat k) (map fst m)) ->
  exists x, c <= x < c + N.of_nat n /\ In x (map fst m) /\ (forall y, c <= y < x -> ~ In y (map fst m)) /\ addRangeT n c m = Says DomainError (b_ "range option '" ++ [x] ++ b_ "' already in choices").
Proof.
  induction n as [|n IH]; intros c m Hm (k & K & I); [lia|]. cbn [addRangeT]. destruct (hasKey c m) eqn:E.
  - exists c. split; [lia|]. split; [apply hasKey_iff; exact E|]. split; [intros y Y; lia|reflexivity].
  - assert (Nc : ~ In c (map fst m)) by (intro X; apply hasKey_iff in X; congruence). destruct (IH (c + 1) (insertKey c [] m)) as (x & X1 & X2 & X3 & X4).
    + apply insert_map; assumption.
    + destruct k as [|k]; [exfalso; apply Nc; rewrite N.add_0_r in I; exact I|]. exists k. split; [lia|]. apply insert_keys. right. replace (c + 1 + N.of_nat k) with (c + N.of_nat (S k)) by lia. exact I.
    + exists x. split; [lia|]. apply insert_keys in X2. destruct X2 as [->|X2]; [lia|]. split; [exact X2|]. split; [|exact X4].
      intros y Y Q. destruct (N.eq_dec y c) as [->|D]; [exact (Nc Q)|]. apply (X3 y); [lia|]. apply insert_keys. auto.
Qed.
Lemma says_ext : forall q u m m' def w, (forall e, In e m <-> In e m') -> choice_says signed q u m def w -> choice_says signed q u m' def w.
Proof.
  intros q u m m' def w H X. assert (K : forall c, In c (map fst m) <-> In c (map fst m')) by (intro c; rewrite !in_map_iff; split; intros (e & E & I); exists e; split; auto; apply H; exact I).
  assert (Al : forall c, allowed q u m c <-> allowed q u m' c) by (intro c; unfold allowed, offered; split; intros [d [D|D]]; exists d; auto; left; apply H; exact D).
  assert (Q : quit_free q m -> quit_free q m') by (intros Y c d E I; apply (Y c d E); apply K; exact I).
  destruct X as [c d E I|E A|c w E A F N0|c E A P D C].
  - apply (cs_quit _ _ _ _ _ c d E). apply K. exact I.
  - apply cs_none; [exact (Q E)|]. intros c C. apply (A c). apply Al. exact C.
  - apply (cs_option _ _ _ _ _ c w (Q E)); [apply Al; exact A|intros c' C'; apply F; apply Al; exact C'|exact N0].
  - apply cs_default; [exact (Q E)|destruct A as [x X]; exists x; apply Al; exact X|intros x X; apply P; apply Al; exact X|exact D|intro X; apply C; apply Al; exact X].
Qed.
Lemma range_cases : forall f q a b msg u m def i, is_map m -> bytes_only m -> (forall c d, q = Some (c, d) -> c < 256) -> a < 256 -> b < 256 ->
  (exists w, getRangeT signed f q a b msg u m def i = Says DomainError w /\ range_says signed q a b u m def w)
  \/ ((forall e w, getRangeT signed f q a b msg u m def i <> Says e w) /\ forall w, ~ range_says signed q a b u m def w).
Proof.
  intros f q a b msg u m def i Hm Bo Hq Ha Hb. unfold getRangeT.
  destruct (printable_dec a) as [Pa|Pa]; [rewrite (check_got a _ Pa); cbn [rbind]|destruct (check_says a (b_ "first range option") Ha Pa) as (w & -> & W); left; exists w; split; [reflexivity|apply rs_first; exact W]].
  destruct (printable_dec b) as [Pb|Pb]; [rewrite (check_got b _ Pb); cbn [rbind]|destruct (check_says b (b_ "last range option") Hb Pb) as (w & -> & W); left; exists w; split; [reflexivity|apply rs_last; assumption]].
  destruct (b <? a) eqn:L; [left; eexists; split; [reflexivity|apply rs_order; [exact Pa|exact Pb|lia]]|].
  destruct (existsb (fun k => hasKey (a + N.of_nat k) m) (seq 0 (N.to_nat (b - a + 1)))) eqn:X.
  - left. apply existsb_exists in X. destruct X as (k & Hk & X). apply in_seq in Hk. apply hasKey_iff in X.
    destruct (range_taken (N.to_nat (b - a + 1)) a m Hm) as (x & X1 & X2 & X3 & X4); [exists k; split; [lia|exact X]|]. rewrite X4. cbn [rbind]. eexists. split; [reflexivity|].
    apply (rs_taken _ _ _ _ _ _ _ x); [exact Pa|exact Pb|lia|exact X2|exact X3].
  - assert (Fr : forall c, a <= c <= b -> ~ In c (map fst m)).
    { intros c Hc K. assert (Y : existsb (fun k => hasKey (a + N.of_nat k) m) (seq 0 (N.to_nat (b - a + 1))) = true); [|congruence].
      apply existsb_exists. exists (N.to_nat (c - a)). split; [apply in_seq; lia|]. apply hasKey_iff. replace (a + N.of_nat (N.to_nat (c - a))) with c by lia. exact K. }
    destruct (range_keys (N.to_nat (b - a + 1)) a m Hm) as (m' & E & M & F); [intros k Hk; apply Fr; lia|].
    assert (F' : forall e, In e m' <-> In e m \/ (snd e = [] /\ a <= fst e <= b)).
    { intro e. rewrite F. split; (intros [K|[K1 K2]]; [left; exact K|right; split; [exact K1|lia]]). }
    assert (Bo' : bytes_only m').
    { apply Forall_forall. intros e He. apply F' in He. destruct He as [He|[_ He]]; [unfold bytes_only in Bo; rewrite Forall_forall in Bo; exact (Bo e He)|lia]. }
    pose proof (range_same (N.to_nat (b - a + 1)) a m) as R. rewrite E in R. destruct (addRangeT (N.to_nat (b - a + 1)) a m) as [m2|e w| |]; cbn [plain] in R; try discriminate R.
    assert (m2 = m') as -> by congruence. cbn [rbind]. pose proof (fun e w => get_says f q msg u m' def i e w M Bo' Hq) as G.
    destruct (getT signed f q msg u m' def i) as [y|e w| |] eqn:Q.
    2:{ left. destruct (proj1 (G e w) eq_refl) as [-> C]. exists w. split; [reflexivity|]. apply (rs_rest _ _ _ _ _ _ _ m' w); try assumption. lia. }
    all: right; split; [discriminate|]; intros w W; destruct W as [w [W _]|w _ [W _]|_ _ W|c _ _ W1 W2 _|m3 w _ _ _ _ M3 F3 C]; [exact (W Pa)|exact (W Pb)|lia|exact (Fr _ W1 W2)|];
      assert (C' : choice_says signed q u m' def w) by (apply (says_ext q u m3); [intro e; rewrite F3, F'; tauto|exact C]); pose proof (proj2 (G DomainError w) (conj eq_refl C')) as Y; discriminate Y.
Qed.
Lemma range_fun : forall q a b u m def w w', is_map m -> bytes_only m -> (forall c d, q = Some (c, d) -> c < 256) -> a < 256 -> b < 256 ->
  range_says signed q a b u m def w -> range_says signed q a b u m def w' -> w = w'.
Proof.
  intros q a b u m def w w' Hm Bo Hq Ha Hb H H'.
  destruct H as [w W|w P W|P1 P2 L|c P1 P2 R I F|m1 w P1 P2 R F M1 E1 C]; destruct H' as [w' W'|w' P' W'|P1' P2' L'|c' P1' P2' R' I' F'|m1' w' P1' P2' R' F' M1' E1' C'];
    try (exfalso; match goal with X : not_printable _ ?c _, Y : printable ?c |- _ => exact (proj1 X Y) end); try lia;
    try (match goal with X : not_printable _ _ _, Y : not_printable _ _ _ |- _ => exact (not_printable_fun _ _ _ _ X Y) end); try reflexivity.
  - assert (c = c') as ->; [|reflexivity]. destruct (N.lt_trichotomy c c') as [D|[D|D]]; [|exact D|]; exfalso; [apply (F' c)|apply (F c')]; try assumption; lia.
  - destruct (F' c R I).
  - destruct (F c' R' I').
  - apply (says_fun q u m1 def); [|exact Hq|exact C|].
    + apply Forall_forall. intros e He. apply E1 in He. destruct He as [He|[_ He]]; [unfold bytes_only in Bo; rewrite Forall_forall in Bo; exact (Bo e He)|lia].
    + apply (says_ext q u m1'); [intro e; rewrite E1, E1'; tauto|exact C'].
Qed.
Lemma range_iff : forall f q a b msg u m def i e w, is_map m -> bytes_only m -> (forall c d, q = Some (c, d) -> c < 256) -> a < 256 -> b < 256 ->
  getRangeT signed f q a b msg u m def i = Says e w <-> e = DomainError /\ range_says signed q a b u m def w.
Proof.
  intros f q a b msg u m def i e w Hm Bo Hq Ha Hb. destruct (range_cases f q a b msg u m def i Hm Bo Hq Ha Hb) as [(w' & E & W)|[E W]].
  - rewrite E. split; [intro X; assert (e = DomainError /\ w = w') as [-> ->] by (split; congruence); auto|]. intros [-> X].
    rewrite (range_fun q a b u m def w w' Hm Bo Hq Ha Hb X W). reflexivity.
  - split; [intro X; destruct (E _ _ X)|intros [_ X]; destruct (W _ X)].
Qed.
Lemma rangeget_same : forall f q a b msg u m def i, is_map m -> bytes_only m -> (forall c d, q = Some (c, d) -> c < 256) -> a < 256 -> b < 256 ->
  plain (getRangeT signed f q a b msg u m def i) = getRange f q a b msg u m def i.
Proof.
  intros f q a b msg u m def i Hm Bo Hq Ha Hb. unfold getRangeT, getRange. rewrite plain_bind, (check_same a _ Ha). destruct (checkPrintableAscii a) as [x| | |] eqn:E1; cbn [obind]; try reflexivity.
  rewrite plain_bind, (check_same b _ Hb). destruct (checkPrintableAscii b) as [y| | |] eqn:E2; cbn [obind]; try reflexivity. destruct (b <? a) eqn:L; [reflexivity|]. rewrite plain_bind, range_same.
  destruct (addRange (N.to_nat (b - a + 1)) a m) as [m'| | |] eqn:R; cbn [obind]; try reflexivity.
  assert (M : is_map m' /\ bytes_only m').
  { clear - Hm Bo R Ha Hb L E1 E2. unfold checkPrintableAscii in E1, E2. destruct ((a <? 32) || (126 <? a)) eqn:X1; [discriminate E1|]. destruct ((b <? 32) || (126 <? b)) eqn:X2; [discriminate E2|].
    assert (Y : a + N.of_nat (N.to_nat (b - a + 1)) <= 256) by lia. clear E1 E2 X1 X2 L. revert Y R. generalize (N.to_nat (b - a + 1)) as n. intro n. clear Ha Hb. revert a m Hm Bo.
    induction n as [|n IH]; intros a m Hm Bo Y R; cbn [addRange] in R; [assert (m = m') as <- by congruence; auto|]. destruct (hasKey a m) eqn:K; [discriminate R|].
    apply (IH (a + 1) (insertKey a [] m)); [apply insert_map; [exact Hm|intro Q; apply hasKey_iff in Q; congruence]| |lia|exact R].
    apply Forall_forall. intros e He. apply insert_in in He. destruct He as [->|He]; [cbn [fst]; lia|]. unfold bytes_only in Bo. rewrite Forall_forall in Bo. exact (Bo e He). }
  apply get_same; [exact (proj1 M)|exact (proj2 M)|exact Hq].
Qed.
End Choices.
