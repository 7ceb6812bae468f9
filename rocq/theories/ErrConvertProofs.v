(** Facts about the messages of kanaConvert and kanjiFormat. *)
From Verif Require Import BaseFacts ArgsProofs ProgramModel ProgramSpec ProgramProofs ErrConvertModel ErrConvertSpec ErrArgsProofs.
Open Scope N_scope.
Arguments N.mul : simpl never. Arguments N.add : simpl never. Arguments N.sub : simpl never.
Arguments N.lor : simpl never. Arguments N.eqb : simpl never.

(** ** The same as without texts *)
Lemma processArg_plain : forall p arg, ErrBase.plain (processArgT p arg) = ProgramModel.processArg p arg.
Proof.
  intros p arg. unfold processArgT, ProgramModel.processArg. cbv zeta.
  destruct (pInteractive p || pSuppress p || pKana p || pMarkdown p);
    (destruct (beq arg (b_ "-i")); [reflexivity|]; destruct (beq arg (b_ "-m")); [reflexivity|]; destruct (beq arg (b_ "-n")); [reflexivity|];
     destruct (beq arg (b_ "-p")); [reflexivity|]; destruct (dashed arg); [destruct (charTypeArgs (pConv p) arg); reflexivity|reflexivity]).
Qed.
Lemma restArgs_plain : forall fuel a i, ErrBase.plain (restArgsT fuel a i) = restArgs fuel a i.
Proof.
  induction fuel as [|f IH]; intros a i; [reflexivity|]. cbn [restArgsT restArgs]. cbv zeta. destruct (u16 (i + 1) <? argc a); [|reflexivity].
  rewrite plain_bind, argAt_plain. destruct (argAt a (u16 (i + 1))) as [s|e| |]; [|reflexivity|reflexivity|reflexivity]. cbn [obind].
  rewrite plain_bind, IH. destruct (restArgs f a (u16 (i + 1))) as [[l j]|e| |]; reflexivity.
Qed.
Lemma readLoop_plain : forall fuel a i p, ErrBase.plain (readLoopT fuel a i p) = readLoop fuel a i p.
Proof.
  induction fuel as [|f IH]; intros a i p; [reflexivity|]. cbn [readLoopT readLoop]. destruct (i <? argc a); [|reflexivity].
  rewrite plain_bind, argAt_plain. destruct (argAt a i) as [s|e| |]; [|reflexivity|reflexivity|reflexivity]. cbn [obind].
  destruct (beq s (b_ "--")).
  { rewrite plain_bind, restArgs_plain. destruct (restArgs f a i) as [[l j]|e| |]; [|reflexivity|reflexivity|reflexivity]. cbn [obind]. apply IH. }
  destruct (beq s (b_ "-?")); [reflexivity|]. destruct (beq s (b_ "-f")).
  { cbv zeta. destruct (argc a <=? u16 (i + 1)); [reflexivity|]. rewrite plain_bind, argAt_plain.
    destruct (argAt a (u16 (i + 1))) as [t|e| |]; [|reflexivity|reflexivity|reflexivity]. cbn [obind].
    destruct t as [|c [|d t]]; [reflexivity| |reflexivity]. destruct (flagArgs (pConv p) c); [apply IH|reflexivity]. }
  rewrite plain_bind, processArg_plain. destruct (ProgramModel.processArg p s) as [o|e| |]; [|reflexivity|reflexivity|reflexivity]. cbn [obind]. apply IH.
Qed.
Lemma readProgram_plain : forall fuel a, ErrBase.plain (readProgramT fuel a) = readProgram fuel a.
Proof. intros. apply readLoop_plain. Qed.
Lemma out_plain : forall std A (p : bytes * out A), (fst (outT std p), ErrBase.plain (snd (outT std p))) = p.
Proof. intros std A [w x]. cbn [outT fst snd]. rewrite withText_plain. reflexivity. Qed.
Lemma program_plain : forall std ltr fuel a terminal i,
  (fst (programT std ltr fuel a terminal i), ErrBase.plain (snd (programT std ltr fuel a terminal i))) = program ltr fuel a terminal i.
Proof.
  intros std ltr fuel a terminal i. unfold programT, program. rewrite <- readProgram_plain.
  destruct (readProgramT fuel a) as [[p|]|e w| |]; [|reflexivity|reflexivity|reflexivity|reflexivity].
  cbn [ErrBase.plain lift wbind]. assert (W0 : forall w : W unit, (let (w', r') := w in ([] ++ w', r')) = w) by (intros [? ?]; reflexivity).
  rewrite W0. destruct (pStrings p).
  - destruct (pKana p || pMarkdown p); [apply out_plain|]. destruct (terminal && negb (pInteractive p)); [reflexivity|apply out_plain].
  - destruct (pInteractive p || pKana p || pMarkdown p); [reflexivity|apply out_plain].
Qed.

(** ** The arguments as a list *)
Fixpoint readListT (l : list bytes) (p : Prog) {struct l} : ErrBase.res (option Prog) :=
  match l with
  | [] => Got (Some p)
  | arg :: r =>
      if beq arg (b_ "--") then Got (Some (withStrings p r))
      else if beq arg (b_ "-?") then Got None
      else if beq arg (b_ "-f") then
        match r with
        | [] => Says DomainError (b_ "-f must be followed by a flag value")
        | a :: r' =>
            match a with
            | [c] => match flagArgs (pConv p) c with
                     | Some v => readListT r' (withConv p v)
                     | None => Says DomainError (b_ "illegal option for -f: " ++ a)
                     end
            | _ => Says DomainError (b_ "illegal option for -f: " ++ a)
            end
        end
      else o <~ processArgT p arg ;; readListT r (match o with Some q => q | None => withStrings p [arg] end)
  end.
Lemma readList_plain : forall n l p, (length l <= n)%nat -> ErrBase.plain (readListT l p) = readList l p.
Proof.
  induction n as [|n IH]; intros l p Hn; (destruct l as [|a r]; [reflexivity|]; cbn [length] in Hn); [lia|].
  cbn [readListT readList]. destruct (beq a (b_ "--")); [reflexivity|]. destruct (beq a (b_ "-?")); [reflexivity|]. destruct (beq a (b_ "-f")).
  - destruct r as [|[|c [|d s]] r]; try reflexivity. destruct (flagArgs (pConv p) c); [|reflexivity]. apply IH. cbn [length] in Hn. lia.
  - rewrite plain_bind, processArg_plain. destruct (ProgramModel.processArg p a); try reflexivity. apply IH. lia.
Qed.
Lemma argAtT_spec : forall l i s, nth_error l (N.to_nat i) = Some s -> argAtT (argsOf l) i = Got s.
Proof. intros l i s H. apply plain_val. rewrite argAt_plain. apply argAt_spec. exact H. Qed.
Lemma read_listT : forall fuel l i r p, len l < 65535 -> skipn (N.to_nat i) l = r -> i <= len l -> (S (length r) < fuel)%nat ->
  readLoopT fuel (argsOf l) i p = readListT r p.
Proof.
  induction fuel as [|fuel IH]; intros l i r p Hl Hr Hi Hf; [lia|]. cbn [readLoopT]. change (argc (argsOf l)) with (len l).
  destruct r as [|arg r].
  { apply skipn_nil_ge in Hr. replace (i <? len l) with false by (unfold len in *; lia). reflexivity. }
  apply skipn_cons_inv in Hr. destruct Hr as (H1 & H2 & H3). replace (i <? len l) with true by (unfold len in *; lia).
  rewrite (argAtT_spec l i arg H1). cbn [rbind readListT]. cbn [length] in Hf. unfold u16.
  destruct (beq arg (b_ "--")).
  { assert (R : restArgsT fuel (argsOf l) i = Got (r, len l))
      by (apply plain_val; rewrite restArgs_plain; apply rest_args; try assumption; unfold len in *; lia).
    rewrite R. cbn [rbind].
    rewrite N.mod_small by lia. destruct fuel as [|fuel]; [lia|]. cbn [readLoopT]. change (argc (argsOf l)) with (len l).
    replace (len l + 1 <? len l) with false by lia. reflexivity. }
  destruct (beq arg (b_ "-?")); [reflexivity|].
  rewrite (N.mod_small (i + 1)) by (unfold len in *; lia).
  destruct (beq arg (b_ "-f")).
  { destruct r as [|s r].
    - apply skipn_nil_ge in H2. replace (len l <=? i + 1) with true by (unfold len in *; lia). reflexivity.
    - apply skipn_cons_inv in H2. destruct H2 as (K1 & K2 & K3). replace (len l <=? i + 1) with false by (unfold len in *; lia).
      rewrite (argAtT_spec l (i + 1) s) by (replace (N.to_nat (i + 1)) with (S (N.to_nat i)) by lia; exact K1). cbn [rbind].
      destruct s as [|c [|? ?]]; [reflexivity| |reflexivity]. destruct (flagArgs (pConv p) c); [|reflexivity].
      rewrite N.mod_small by (unfold len in *; lia). apply IH; [exact Hl| |unfold len in *; lia|cbn [length] in Hf; lia].
      replace (N.to_nat (i + 1 + 1)) with (S (S (N.to_nat i))) by lia. exact K2. }
  destruct (processArgT p arg) as [o|e w| |]; [|reflexivity|reflexivity|reflexivity]. cbn [rbind].
  apply IH; [exact Hl| |unfold len in *; lia|lia]. replace (N.to_nat (i + 1)) with (S (N.to_nat i)) by lia. exact H2.
Qed.
Lemma read_programT : forall fuel prog l, len (prog :: l) < 65535 -> (S (length l) < fuel)%nat ->
  readProgramT fuel (argsOf (prog :: l)) = readListT l noProg.
Proof. intros fuel prog l H1 H2. unfold readProgramT. apply read_listT; [exact H1|reflexivity|rewrite len_cons; lia|exact H2]. Qed.

Lemma said_readT : forall x a, said x a -> forall p r, (match x with IMode _ => anyMode p = false | _ => True end) ->
  readListT (a ++ r) p = readListT r (apply p x).
Proof.
  intros x a H p r F. destruct H as [| | | |c t L|c t L|c n L|s L].
  1-4: cbn [app readListT]; unfold processArgT; fold (anyMode p); rewrite F; reflexivity.
  - destruct L; reflexivity.
  - destruct L; reflexivity.
  - destruct L; reflexivity.
  - cbn [app readListT]. destruct s as [|c s].
    + reflexivity.
    + assert (N : c <> 45) by (intro; subst; apply L; reflexivity).
      assert (B : forall b, beq (c :: s) (45 :: b) = false) by (intro b; apply beq_neq; congruence).
      change (b_ "--") with [45; 45]. change (b_ "-?") with [45; 63]. change (b_ "-f") with [45; 102].
      rewrite !B. unfold processArgT. change (b_ "-i") with [45; 105]. change (b_ "-m") with [45; 109].
      change (b_ "-n") with [45; 110]. change (b_ "-p") with [45; 112]. rewrite !B. unfold dashed.
      replace (c =? 45) with false by lia. reflexivity.
Qed.
Lemma spells_readT : forall is l, spells is l -> forall p r, fits p is -> readListT (l ++ r) p = readListT r (fold_left apply is p).
Proof.
  intros is l H. induction H as [|x a is l S H IH]; intros p r F; [reflexivity|].
  apply fits_cons in F. destruct F as [F1 F2]. rewrite <- app_assoc. rewrite (said_readT x a S p _ F1). cbn [fold_left]. apply IH. exact F2.
Qed.

(** ** What is wrong *)
Inductive trouble (mode : bool) : list bytes -> bytes -> Prop :=
| tr_mode : forall a r, mode = true -> In a [b_ "-i"; b_ "-m"; b_ "-n"; b_ "-p"] -> trouble mode (a :: r) (b_ "can only specify one of -i, -m, -n, or -p")
| tr_no_flag : trouble mode [b_ "-f"] (b_ "-f must be followed by a flag value")
| tr_flag : forall a r, (forall c n, flag_letter c n -> a <> [c]) -> trouble mode (b_ "-f" :: a :: r) (b_ "illegal option for -f: " ++ a)
| tr_illegal : forall a r, hd_error a = Some 45 -> ~ In a [b_ "--"; b_ "-?"; b_ "-f"; b_ "-i"; b_ "-m"; b_ "-n"; b_ "-p"] ->
    (forall c t, target_letter c t \/ source_letter c t -> a <> [45; c]) -> trouble mode (a :: r) (b_ "illegal option: " ++ a).
Lemma not_in_beq : forall a l, ~ In a l -> forall x, In x l -> beq a x = false.
Proof. intros a l H x I. destruct (beq a x) eqn:E; [|reflexivity]. apply beq_eq in E. subst. contradiction. Qed.
Lemma trouble_says : forall p l w, trouble (anyMode p) l w -> readListT l p = Says DomainError w.
Proof.
  intros p l w T. destruct T as [a r M I| |a r N|a r H N1 N2].
  - destruct I as [<-|[<-|[<-|[<-|[]]]]]; cbn [readListT]; unfold processArgT; fold (anyMode p); rewrite M; reflexivity.
  - reflexivity.
  - cbn [readListT]. change (beq (b_ "-f") (b_ "--")) with false. change (beq (b_ "-f") (b_ "-?")) with false. rewrite beq_refl.
    destruct a as [|c [|d s]]; [reflexivity| |reflexivity]. destruct (flag_args (pConv p) c) as [(n & L & _)|(_ & E)]; [exfalso; exact (N c n L eq_refl)|].
    rewrite E. reflexivity.
  - pose proof (not_in_beq _ _ N1) as B. cbn [readListT]. rewrite (B (b_ "--")), (B (b_ "-?")), (B (b_ "-f")) by (cbn [In]; auto 8).
    unfold processArgT. rewrite (B (b_ "-i")), (B (b_ "-m")), (B (b_ "-n")), (B (b_ "-p")) by (cbn [In]; auto 8).
    rewrite (proj2 (dashed_hd a) H). assert (K : charTypeArgs (pConv p) a = None).
    { destruct a as [|x [|c [|d s]]]; try reflexivity. cbn in H. assert (x = 45) by congruence. subst x.
      destruct (char_type_args (pConv p) c) as [(t & L & _)|[(t & L & _)|(_ & _ & K)]]; [| |exact K]; exfalso; eapply N2; eauto. }
    rewrite K. reflexivity.
Qed.
Lemma fits_nil : forall p, fits p [].
Proof. intro p. unfold fits. cbn. destruct (anyMode p); lia. Qed.
Definition troubled (p : Prog) (l : list bytes) (w : bytes) : Prop :=
  exists is l1 tail, l = l1 ++ tail /\ spells is l1 /\ fits p is /\ trouble (anyMode (fold_left apply is p)) tail w.
Lemma troubled_cons : forall x a p l w, said x a -> (match x with IMode _ => anyMode p = false | _ => True end) ->
  troubled (apply p x) l w -> troubled p (a ++ l) w.
Proof.
  intros x a p l w S F (is & l1 & tail & -> & H1 & H2 & T). exists (x :: is), (a ++ l1), tail.
  split; [apply app_assoc|]. split; [constructor; assumption|]. split; [apply fits_cons; auto|exact T].
Qed.
Lemma says_trouble : forall n l p e w, (length l <= n)%nat -> readListT l p = Says e w -> e = DomainError /\ troubled p l w.
Proof.
  induction n as [|n IH]; intros l p e w Hn H; (destruct l as [|arg r]; [discriminate H|]; cbn [length] in Hn); [lia|].
  assert (T0 : forall w', trouble (anyMode p) (arg :: r) w' -> e = DomainError /\ troubled p (arg :: r) w).
  { intros w' T. pose proof (trouble_says _ _ _ T) as E. rewrite H in E. assert (e = DomainError /\ w = w') as [-> ->] by (split; congruence).
    split; [reflexivity|]. exists [], [], (arg :: r). split; [reflexivity|]. split; [constructor|]. split; [apply fits_nil|exact T]. }
  pose proof H as H0. cbn [readListT] in H0.
  destruct (beq arg (b_ "--")) eqn:E1; [discriminate H0|]. destruct (beq arg (b_ "-?")) eqn:E2; [discriminate H0|].
  destruct (beq arg (b_ "-f")) eqn:E3.
  { apply beq_eq in E3. subst arg. destruct r as [|s r]; [eapply T0, tr_no_flag|].
    destruct s as [|c [|d s]]; try (eapply T0, tr_flag; intros; discriminate).
    destruct (flag_args (pConv p) c) as [(k & L & E)|(L & E)].
    - rewrite E in H0. destruct (IH r (withConv p (setFlag (pConv p) (2 ^ k))) e w) as [-> Q]; [cbn [length] in Hn; lia|exact H0|].
      split; [reflexivity|]. change (b_ "-f" :: [c] :: r) with ([b_ "-f"; [c]] ++ r).
      apply troubled_cons with (IFlag k); [constructor; exact L|exact Logic.I|exact Q].
    - eapply T0, tr_flag. intros c' m L' X. assert (c' = c) by congruence. subst c'. exact (L m L'). }
  assert (M : forall m a, said (IMode m) [a] -> arg = a -> In a [b_ "-i"; b_ "-m"; b_ "-n"; b_ "-p"] ->
     e = DomainError /\ troubled p (arg :: r) w).
  { intros m a S -> I. destruct (anyMode p) eqn:E.
    - eapply T0. try rewrite E. apply tr_mode; [reflexivity|exact I].
    - change (a :: r) with ([a] ++ r). pose proof (said_readT (IMode m) [a] S p r E) as R. cbn [app] in R. rewrite R in H.
      destruct (IH r (apply p (IMode m)) e w) as [-> Q]; [lia|exact H|]. split; [reflexivity|]. apply troubled_cons with (IMode m); [exact S|exact E|exact Q]. }
  destruct (beq arg (b_ "-i")) eqn:E4; [apply beq_eq in E4; eapply M; [apply said_i|exact E4|cbn [In]; auto]|].
  destruct (beq arg (b_ "-m")) eqn:E5; [apply beq_eq in E5; eapply M; [apply said_m|exact E5|cbn [In]; auto]|].
  destruct (beq arg (b_ "-n")) eqn:E6; [apply beq_eq in E6; eapply M; [apply said_n|exact E6|cbn [In]; auto]|].
  destruct (beq arg (b_ "-p")) eqn:E7; [apply beq_eq in E7; eapply M; [apply said_p|exact E7|cbn [In]; auto 6]|].
  assert (N7 : ~ In arg [b_ "--"; b_ "-?"; b_ "-f"; b_ "-i"; b_ "-m"; b_ "-n"; b_ "-p"]).
  { intros [X|[X|[X|[X|[X|[X|[X|[]]]]]]]]; rewrite <- X, beq_refl in *; discriminate. }
  assert (S1 : forall x, said x [arg] -> (match x with IMode _ => anyMode p = false | _ => True end) -> e = DomainError /\ troubled p (arg :: r) w).
  { intros x S F. change (arg :: r) with ([arg] ++ r). pose proof (said_readT x [arg] S p r F) as R. cbn [app] in R. rewrite R in H.
    destruct (IH r (apply p x) e w) as [-> Q]; [lia|exact H|]. split; [reflexivity|]. apply troubled_cons with x; assumption. }
  destruct (dashed arg) eqn:E8.
  - apply dashed_hd in E8. destruct arg as [|x [|c [|d s]]]; try discriminate E8.
    + eapply T0, tr_illegal; [exact E8|exact N7|intros; discriminate].
    + cbn in E8. assert (x = 45) by congruence. subst x.
      destruct (char_type_args (pConv p) c) as [(t & L & _)|[(t & L & _)|(L1 & L2 & _)]].
      * apply (S1 (ITarget t)); [constructor; exact L|exact Logic.I].
      * apply (S1 (ISource t)); [constructor; exact L|exact Logic.I].
      * eapply T0, tr_illegal; [reflexivity|exact N7|]. intros c' t [L|L] X; assert (c' = c) by congruence; subst c'; [exact (L1 t L)|exact (L2 t L)].
    + eapply T0, tr_illegal; [exact E8|exact N7|intros; discriminate].
  - apply (S1 (IText arg)); [constructor; intro X; apply dashed_hd in X; congruence|exact Logic.I].
Qed.

(** ** The plan *)
Lemma says_eq : forall A e e' w w', @Says A e w = Says e' w' -> e = e' /\ w = w'.
Proof. intros A e e' w w' H. split; congruence. Qed.
Definition planT (terminal : bool) (o : option Prog) : ErrBase.res task :=
  match o with
  | None => Got TUsage
  | Some p =>
      match pStrings p with
      | _ :: _ => if pInteractive p || pKana p || pMarkdown p then Says DomainError (b_ "'string' args can't be combined with '-i', '-m' or '-p'")
                  else Got (TStrings (pConv p) (pStrings p))
      | [] => if pKana p || pMarkdown p then Got (TChart (pMarkdown p))
              else if terminal && negb (pInteractive p) then Says DomainError (b_ "provide one or more 'strings' or '-i' for interactive mode")
              else Got (TInput (pInteractive p) (negb (pSuppress p)) (pConv p))
      end
  end.
Lemma any_fold : forall is l, spells is l -> (length (modes is) <= 1)%nat -> anyMode (fold_left apply is noProg) = negb (length (modes is) =? 0)%nat.
Proof.
  intros is l S Hm. destruct (fold_modes is noProg) as (H1 & H2 & H3 & H4 & _). unfold anyMode. rewrite H1, H2, H3, H4.
  destruct (modes is) as [|m [|m' ms]]; [reflexivity|destruct m; reflexivity|cbn [length] in Hm; lia].
Qed.
Lemma refusal_says : forall terminal l w, refusal terminal l w -> (o <~ readListT l noProg ;; planT terminal o) = Says DomainError w.
Proof.
  assert (P : forall terminal is l tail w, spells is l -> (length (modes is) <= 1)%nat ->
     trouble (negb (length (modes is) =? 0)%nat) tail w -> (o <~ readListT (l ++ tail) noProg ;; planT terminal o) = Says DomainError w).
  { intros terminal is l tail w S M T. rewrite (spells_readT is l S noProg tail) by (unfold fits; cbn; lia).
    rewrite <- (any_fold is l S M) in T. rewrite (trouble_says _ _ _ T). reflexivity. }
  intros terminal l w H. destruct H as [is l a r S M I|is l S M|is l a r S M N|is l a r S M H N1 N2|is l ss m A Hs M Hm|is l T A M].
  - apply (P terminal is l (a :: r)); [exact S|lia|]. rewrite M. apply tr_mode; [reflexivity|exact I].
  - apply (P terminal is l [b_ "-f"]); [exact S|exact M|apply tr_no_flag].
  - apply (P terminal is l (b_ "-f" :: a :: r)); [exact S|exact M|apply tr_flag; exact N].
  - apply (P terminal is l (a :: r)); [exact S|exact M|apply tr_illegal; assumption].
  - destruct (asks_read _ _ _ A) as (p & E & E1 & E2 & E3 & E4 & E5 & E6). rewrite <- (readList_plain (length l) l noProg (le_n _)) in E.
    rewrite (plain_val _ _ _ E). cbn [rbind planT]. rewrite E1, E3, E5, E6, M. destruct ss; [congruence|]. destruct m; try reflexivity. congruence.
  - destruct (asks_read _ _ _ A) as (p & E & E1 & E2 & E3 & E4 & E5 & E6). rewrite <- (readList_plain (length l) l noProg (le_n _)) in E.
    rewrite (plain_val _ _ _ E). cbn [rbind planT]. rewrite E1, E3, E5, E6, T. destruct M as [->| ->]; reflexivity.
Qed.
Lemma plan_plain : forall terminal o, ErrBase.plain (planT terminal o) = plan terminal o.
Proof.
  intros terminal [p|]; [|reflexivity]. unfold planT, plan. destruct (pStrings p).
  - destruct (pKana p || pMarkdown p); [reflexivity|]. destruct (terminal && negb (pInteractive p)); reflexivity.
  - destruct (pInteractive p || pKana p || pMarkdown p); reflexivity.
Qed.
Lemma says_refusal : forall terminal l e w, (o <~ readListT l noProg ;; planT terminal o) = Says e w -> e = DomainError /\ refusal terminal l w.
Proof.
  intros terminal l e w H. destruct (readListT l noProg) as [o|e' w'| |] eqn:E; [|cbn [rbind] in H|discriminate H|discriminate H].
  2:{ assert (e' = e /\ w' = w) as [-> ->] by (split; congruence). destruct (says_trouble (length l) l noProg e w (le_n _) E) as [-> (is & l1 & tail & -> & S & F & T)].
      split; [reflexivity|]. assert (M : (length (modes is) <= 1)%nat) by (unfold fits in F; cbn in F; lia). rewrite (any_fold is l1 S M) in T.
      destruct T as [a r Hm I| |a r N|a r H1 N1 N2].
      - apply (rf_two_modes terminal is l1 a r S); [|exact I]. destruct (length (modes is)) as [|[|k]]; [discriminate Hm|reflexivity|lia].
      - apply (rf_no_flag terminal is l1 S M).
      - apply (rf_flag terminal is l1 a r S M N).
      - apply (rf_illegal terminal is l1 a r S M H1 N1 N2). }
  cbn [rbind] in H. pose proof (f_equal ErrBase.plain E) as E0. rewrite (readList_plain (length l) l noProg (le_n _)) in E0. cbn [ErrBase.plain] in E0.
  assert (A : exists is ss, asks l is ss \/ o = None).
  { destruct (shapes (length l) l noProg (le_n _)) as [is S F|is l1 r -> S F|is l1 r -> S F|B].
    - exists is, (texts is). left. split; [unfold fits in F; cbn in F; lia|left; auto].
    - exists is, (texts is ++ r). left. split; [unfold fits in F; cbn in F; lia|right; eauto].
    - exists [], []. right. pose proof (spells_read is l1 S noProg (b_ "-?" :: r)) as R. rewrite R in E0 by (unfold fits in *; cbn in *; lia).
      assert (X : readList (b_ "-?" :: r) (fold_left apply is noProg) = Val None) by reflexivity. rewrite X in E0. congruence.
    - congruence. }
  destruct A as (is & ss & [A|A]); [|subst o; discriminate H].
  destruct (asks_read _ _ _ A) as (p & Ep & E1 & E2 & E3 & E4 & E5 & E6). rewrite E0 in Ep. injection Ep as ->.
  cbn [planT] in H. rewrite E1, E3, E5, E6 in H. pose proof (proj1 A) as Hm. destruct (modes is) as [|m [|? ?]] eqn:M; [| |cbn in Hm; lia].
  - destruct ss as [|s ss]; [|discriminate H]. destruct terminal; [|discriminate H]. 
    destruct (says_eq _ _ _ _ _ (H : Says DomainError (b_ "provide one or more 'strings' or '-i' for interactive mode") = Says e w)) as [<- <-].
    split; [reflexivity|]. eapply rf_nothing; [reflexivity|exact A|left; exact M].
  - destruct ss as [|s ss].
    + destruct m; try discriminate H; (destruct terminal; try discriminate H). 
      destruct (says_eq _ _ _ _ _ (H : Says DomainError (b_ "provide one or more 'strings' or '-i' for interactive mode") = Says e w)) as [<- <-].
      split; [reflexivity|]. eapply rf_nothing; [reflexivity|exact A|right; exact M].
    + assert (Q : m <> MNoNewline /\ e = DomainError /\ w = b_ "'string' args can't be combined with '-i', '-m' or '-p'").
      { destruct m; try discriminate H; (split; [discriminate|]);
          destruct (says_eq _ _ _ _ _ (H : Says DomainError (b_ "'string' args can't be combined with '-i', '-m' or '-p'") = Says e w)) as [<- <-];
          split; reflexivity. }
      destruct Q as (Q & -> & ->). split; [reflexivity|]. eapply rf_texts; [exact A|discriminate|exact M|exact Q].
Qed.

Lemma programT_plan : forall std ltr fuel a terminal i,
  programT std ltr fuel a terminal i = match (o <~ readProgramT fuel a ;; planT terminal o) with
    | Got t => outT std (perform ltr fuel i t)
    | x => failT x
    end.
Proof.
  intros std ltr fuel a terminal i. unfold programT. destruct (readProgramT fuel a) as [[p|]|e w| |]; [|reflexivity|reflexivity|reflexivity|reflexivity].
  cbn [rbind planT]. destruct (pStrings p).
  - destruct (pKana p || pMarkdown p); [reflexivity|]. destruct (terminal && negb (pInteractive p)); [reflexivity|].
    cbn [perform]. rewrite negb_involutive. reflexivity.
  - destruct (pInteractive p || pKana p || pMarkdown p); reflexivity.
Qed.
