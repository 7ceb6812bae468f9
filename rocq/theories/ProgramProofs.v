(** Proofs about the command line of kanaConvert. *)
From Verif Require Import BaseFacts ArgsProofs ConverterWhole KanaRomajiProofs ProgramModel ProgramSpec.
Open Scope N_scope.
Arguments N.mul : simpl never. Arguments N.add : simpl never. Arguments N.sub : simpl never.
Arguments N.lor : simpl never. Arguments N.eqb : simpl never.

(** ** the arguments as a list *)
Fixpoint readList (l : list bytes) (p : Prog) {struct l} : out (option Prog) :=
  match l with
  | [] => Val (Some p)
  | arg :: r =>
      if beq arg (b_ "--") then Val (Some (withStrings p r))
      else if beq arg (b_ "-?") then Val None
      else if beq arg (b_ "-f") then
        match r with
        | [c] :: r' => match flagArgs (pConv p) c with Some v => readList r' (withConv p v) | None => Throw DomainError end
        | _ => Throw DomainError
        end
      else o <- processArg p arg ;; readList r (match o with Some q => q | None => withStrings p [arg] end)
  end.

Lemma skipn_nil_ge : forall (A : Type) n (l : list A), skipn n l = [] -> (length l <= n)%nat.
Proof. intros A n l H. apply (f_equal (@length A)) in H. rewrite skipn_length in H. cbn [length] in H. lia. Qed.
Lemma skipn_cons_inv : forall (A : Type) n (l : list A) x r, skipn n l = x :: r ->
  nth_error l n = Some x /\ skipn (S n) l = r /\ (n < length l)%nat.
Proof.
  intros A n. induction n as [|n IH]; intros l x r H.
  - destruct l; [discriminate|]. cbn [skipn] in H. inversion H; subst. split; [reflexivity|]. split; [reflexivity|cbn [length]; lia].
  - destruct l as [|y l]; [discriminate|]. cbn [skipn] in H. destruct (IH l x r H) as (A1 & A2 & A3).
    split; [exact A1|]. split; [exact A2|cbn [length]; lia].
Qed.
Lemma rest_args : forall fuel l i r, len l < 65535 -> skipn (S (N.to_nat i)) l = r -> i < len l -> (length r < fuel)%nat ->
  restArgs fuel (argsOf l) i = Val (r, len l).
Proof.
  induction fuel as [|fuel IH]; intros l i r Hl Hr Hi Hf; [lia|]. cbn [restArgs]. change (argc (argsOf l)) with (len l).
  unfold u16. rewrite N.mod_small by lia. destruct r as [|x r].
  - apply skipn_nil_ge in Hr. replace (i + 1 <? len l) with false by (unfold len in *; lia).
    replace (i + 1) with (len l) by (unfold len in *; lia). reflexivity.
  - apply skipn_cons_inv in Hr. destruct Hr as (H1 & H2 & H3). replace (i + 1 <? len l) with true by (unfold len in *; lia).
    rewrite (argAt_spec l (i + 1) x) by (replace (N.to_nat (i + 1)) with (S (N.to_nat i)) by lia; exact H1). cbn [obind].
    rewrite (IH l (i + 1) r); [reflexivity|exact Hl| |unfold len in *; lia|cbn [length] in Hf; lia].
    replace (S (N.to_nat (i + 1))) with (S (S (N.to_nat i))) by lia. exact H2.
Qed.
Lemma read_list : forall fuel l i r p, len l < 65535 -> skipn (N.to_nat i) l = r -> i <= len l -> (S (length r) < fuel)%nat ->
  readLoop fuel (argsOf l) i p = readList r p.
Proof.
  induction fuel as [|fuel IH]; intros l i r p Hl Hr Hi Hf; [lia|]. cbn [readLoop]. change (argc (argsOf l)) with (len l).
  destruct r as [|arg r].
  { apply skipn_nil_ge in Hr. replace (i <? len l) with false by (unfold len in *; lia). reflexivity. }
  apply skipn_cons_inv in Hr. destruct Hr as (H1 & H2 & H3). replace (i <? len l) with true by (unfold len in *; lia).
  rewrite (argAt_spec l i arg H1). cbn [obind readList]. cbn [length] in Hf. unfold u16.
  destruct (beq arg (b_ "--")).
  { rewrite (rest_args fuel l i r) by (try assumption; unfold len in *; lia). cbn [obind].
    rewrite N.mod_small by lia. destruct fuel as [|fuel]; [lia|]. cbn [readLoop]. change (argc (argsOf l)) with (len l).
    replace (len l + 1 <? len l) with false by lia. reflexivity. }
  destruct (beq arg (b_ "-?")); [reflexivity|].
  rewrite (N.mod_small (i + 1)) by (unfold len in *; lia).
  destruct (beq arg (b_ "-f")).
  { destruct r as [|s r].
    - apply skipn_nil_ge in H2. replace (len l <=? i + 1) with true by (unfold len in *; lia). reflexivity.
    - apply skipn_cons_inv in H2. destruct H2 as (K1 & K2 & K3). replace (len l <=? i + 1) with false by (unfold len in *; lia).
      rewrite (argAt_spec l (i + 1) s) by (replace (N.to_nat (i + 1)) with (S (N.to_nat i)) by lia; exact K1). cbn [obind].
      destruct s as [|c [|? ?]]; [reflexivity| |reflexivity]. destruct (flagArgs (pConv p) c); [|reflexivity].
      rewrite N.mod_small by (unfold len in *; lia). apply IH; [exact Hl| |unfold len in *; lia|cbn [length] in Hf; lia].
      replace (N.to_nat (i + 1 + 1)) with (S (S (N.to_nat i))) by lia. exact K2. }
  destruct (processArg p arg) as [o|e| |]; [|reflexivity|reflexivity|reflexivity]. cbn [obind].
  apply IH; [exact Hl| |unfold len in *; lia|lia]. replace (N.to_nat (i + 1)) with (S (N.to_nat i)) by lia. exact H2.
Qed.
Lemma read_program : forall fuel prog l, len (prog :: l) < 65535 -> (S (length l) < fuel)%nat ->
  readProgram fuel (argsOf (prog :: l)) = readList l noProg.
Proof.
  intros fuel prog l H1 H2. unfold readProgram. apply read_list; [exact H1|reflexivity|rewrite len_cons; lia|exact H2].
Qed.

(** ** items *)
Definition anyMode (p : Prog) : bool := pInteractive p || pSuppress p || pKana p || pMarkdown p.
Definition apply (p : Prog) (x : item) : Prog :=
  match x with
  | IMode MInteractive => MkProg true (pSuppress p) (pKana p) (pMarkdown p) (pConv p) (pStrings p)
  | IMode MMarkdown => MkProg (pInteractive p) (pSuppress p) (pKana p) true (pConv p) (pStrings p)
  | IMode MNoNewline => MkProg (pInteractive p) true (pKana p) (pMarkdown p) (pConv p) (pStrings p)
  | IMode MChart => MkProg (pInteractive p) (pSuppress p) true (pMarkdown p) (pConv p) (pStrings p)
  | ITarget t => withConv p (setTarget (pConv p) t)
  | ISource t => withConv p (setSource (pConv p) t)
  | IFlag n => withConv p (setFlag (pConv p) (2 ^ n))
  | IText s => withStrings p [s]
  end.
Definition fits (p : Prog) (is : list item) : Prop := ((if anyMode p then 1 else 0) + length (modes is) <= 1)%nat.
Lemma any_apply : forall p x, anyMode (apply p x) = anyMode p || match x with IMode _ => true | _ => false end.
Proof. intros p [[]| | | |]; cbn; unfold anyMode; cbn; destruct (pInteractive p), (pSuppress p), (pKana p), (pMarkdown p); reflexivity. Qed.
Lemma fits_cons : forall p x is, fits p (x :: is) <-> (match x with IMode _ => anyMode p = false | _ => True end) /\ fits (apply p x) is.
Proof.
  intros p x is. unfold fits. rewrite any_apply. destruct x as [m|t|t|n|s]; unfold modes; cbn [flat_map app length]; rewrite ?orb_false_r, ?orb_true_r;
    destruct (anyMode p); try (split; [intro H; split; [first [reflexivity|exact Logic.I|lia]|lia]|intros [_ H]; lia]).
  split; [lia|intros [H _]; discriminate].
Qed.

Lemma said_read : forall x a, said x a -> forall p r, (match x with IMode _ => anyMode p = false | _ => True end) ->
  readList (a ++ r) p = readList r (apply p x).
Proof.
  intros x a H p r F. destruct H as [| | | |c t L|c t L|c n L|s L].
  1-4: cbn [app readList]; unfold processArg; fold (anyMode p); rewrite F; reflexivity.
  - destruct L; reflexivity.
  - destruct L; reflexivity.
  - destruct L; reflexivity.
  - cbn [app readList]. destruct s as [|c s].
    + reflexivity.
    + assert (N : c <> 45) by (intro; subst; apply L; reflexivity).
      assert (B : forall b, beq (c :: s) (45 :: b) = false) by (intro b; apply beq_neq; congruence).
      change (b_ "--") with [45; 45]. change (b_ "-?") with [45; 63]. change (b_ "-f") with [45; 102].
      rewrite !B. unfold processArg. change (b_ "-i") with [45; 105]. change (b_ "-m") with [45; 109].
      change (b_ "-n") with [45; 110]. change (b_ "-p") with [45; 112]. rewrite !B. unfold dashed.
      replace (c =? 45) with false by lia. reflexivity.
Qed.
Lemma spells_read : forall is l, spells is l -> forall p r, fits p is -> readList (l ++ r) p = readList r (fold_left apply is p).
Proof.
  intros is l H. induction H as [|x a is l S H IH]; intros p r F; [reflexivity|].
  apply fits_cons in F. destruct F as [F1 F2]. rewrite <- app_assoc. rewrite (said_read x a S p _ F1). cbn [fold_left]. apply IH. exact F2.
Qed.

(** every list of arguments is one of these *)
Inductive shape (p : Prog) (l : list bytes) : Prop :=
| sh_all : forall is, spells is l -> fits p is -> shape p l
| sh_dash : forall is l1 r, l = l1 ++ b_ "--" :: r -> spells is l1 -> fits p is -> shape p l
| sh_usage : forall is l1 r, l = l1 ++ b_ "-?" :: r -> spells is l1 -> fits p is -> shape p l
| sh_bad : readList l p = Throw DomainError -> shape p l.
Lemma shape_cons : forall x a p l, said x a -> (match x with IMode _ => anyMode p = false | _ => True end) ->
  shape (apply p x) l -> shape p (a ++ l).
Proof.
  intros x a p l S F H. destruct H as [is H1 H2|is l1 r -> H1 H2|is l1 r -> H1 H2|H].
  - apply sh_all with (x :: is); [constructor; assumption|apply fits_cons; auto].
  - apply sh_dash with (x :: is) (a ++ l1) r; [apply app_assoc|constructor; assumption|apply fits_cons; auto].
  - apply sh_usage with (x :: is) (a ++ l1) r; [apply app_assoc|constructor; assumption|apply fits_cons; auto].
  - apply sh_bad. rewrite (said_read x a S p l F). exact H.
Qed.
Lemma char_type_args : forall v c,
  (exists t, target_letter c t /\ charTypeArgs v [45; c] = Some (setTarget v t))
  \/ (exists t, source_letter c t /\ charTypeArgs v [45; c] = Some (setSource v t))
  \/ ((forall t, ~ target_letter c t) /\ (forall t, ~ source_letter c t) /\ charTypeArgs v [45; c] = None).
Proof.
  intros v c. unfold charTypeArgs.
  destruct (c =? 104) eqn:E1; [apply N.eqb_eq in E1; subst; left; eexists; split; [constructor|reflexivity]|].
  destruct (c =? 107) eqn:E2; [apply N.eqb_eq in E2; subst; left; eexists; split; [constructor|reflexivity]|].
  destruct (c =? 114) eqn:E3; [apply N.eqb_eq in E3; subst; left; eexists; split; [constructor|reflexivity]|].
  destruct (c =? 72) eqn:E4; [apply N.eqb_eq in E4; subst; right; left; eexists; split; [constructor|reflexivity]|].
  destruct (c =? 75) eqn:E5; [apply N.eqb_eq in E5; subst; right; left; eexists; split; [constructor|reflexivity]|].
  destruct (c =? 82) eqn:E6; [apply N.eqb_eq in E6; subst; right; left; eexists; split; [constructor|reflexivity]|].
  right. right. apply N.eqb_neq in E1, E2, E3, E4, E5, E6.
  split; [intros t H; inversion H; subst; congruence|]. split; [intros t H; inversion H; subst; congruence|reflexivity].
Qed.
Lemma flag_args : forall v c,
  (exists n, flag_letter c n /\ flagArgs v c = Some (setFlag v (2 ^ n))) \/ ((forall n, ~ flag_letter c n) /\ flagArgs v c = None).
Proof.
  intros v c. unfold flagArgs.
  destruct (c =? 104) eqn:E1; [apply N.eqb_eq in E1; subst; left; eexists; split; [constructor|reflexivity]|].
  destruct (c =? 107) eqn:E2; [apply N.eqb_eq in E2; subst; left; eexists; split; [constructor|reflexivity]|].
  destruct (c =? 110) eqn:E3; [apply N.eqb_eq in E3; subst; left; eexists; split; [constructor|reflexivity]|].
  destruct (c =? 114) eqn:E4; [apply N.eqb_eq in E4; subst; left; eexists; split; [constructor|reflexivity]|].
  right. apply N.eqb_neq in E1, E2, E3, E4. split; [intros n H; inversion H; subst; congruence|reflexivity].
Qed.
Lemma dashed_hd : forall s, dashed s = true <-> hd_error s = Some 45.
Proof.
  intros [|c s]; cbn; [split; discriminate|]. rewrite N.eqb_eq. split; congruence.
Qed.

Lemma shapes : forall n l p, (length l <= n)%nat -> shape p l.
Proof.
  induction n as [|n IH]; intros l p Hn.
  { destruct l; [|cbn [length] in Hn; lia]. apply sh_all with []; [constructor|].
    unfold fits. cbn. destruct (anyMode p); lia. }
  destruct l as [|arg r].
  { apply sh_all with []; [constructor|]. unfold fits. cbn. destruct (anyMode p); lia. }
  cbn [length] in Hn.
  assert (F0 : fits p []) by (unfold fits; cbn; destruct (anyMode p); lia).
  destruct (beq arg (b_ "--")) eqn:E1.
  { apply beq_eq in E1. subst. apply sh_dash with [] [] r; [reflexivity|constructor|exact F0]. }
  destruct (beq arg (b_ "-?")) eqn:E2.
  { apply beq_eq in E2. subst. apply sh_usage with [] [] r; [reflexivity|constructor|exact F0]. }
  destruct (beq arg (b_ "-f")) eqn:E3.
  { destruct r as [|s r]; [apply sh_bad; cbn [readList]; rewrite E1, E2, E3; reflexivity|].
    destruct s as [|c [|? ?]]; try (apply sh_bad; cbn [readList]; rewrite E1, E2, E3; reflexivity).
    destruct (flag_args (pConv p) c) as [(k & L & E)|(L & E)].
    - apply beq_eq in E3. subst arg. change (b_ "-f" :: [c] :: r) with ([b_ "-f"; [c]] ++ r).
      apply shape_cons with (IFlag k); [constructor; exact L|exact Logic.I|]. apply IH. cbn [length] in Hn. lia.
    - apply sh_bad. cbn [readList]. rewrite E1, E2, E3, E. reflexivity. }
  assert (M : forall m a, said (IMode m) [a] -> arg = a -> shape p (arg :: r)).
  { intros m a S ->. destruct (anyMode p) eqn:E.
    - apply sh_bad. cbn [readList]. rewrite E1, E2, E3. unfold processArg. fold (anyMode p). rewrite E. inversion S; subst; reflexivity.
    - change (a :: r) with ([a] ++ r). apply shape_cons with (IMode m); [exact S|exact E|]. apply IH. lia. }
  destruct (beq arg (b_ "-i")) eqn:E4; [apply beq_eq in E4; eapply M; [apply said_i|exact E4]|].
  destruct (beq arg (b_ "-m")) eqn:E5; [apply beq_eq in E5; eapply M; [apply said_m|exact E5]|].
  destruct (beq arg (b_ "-n")) eqn:E6; [apply beq_eq in E6; eapply M; [apply said_n|exact E6]|].
  destruct (beq arg (b_ "-p")) eqn:E7; [apply beq_eq in E7; eapply M; [apply said_p|exact E7]|].
  destruct (dashed arg) eqn:E8.
  - assert (Z : processArg p arg = match charTypeArgs (pConv p) arg with Some v => Val (Some (withConv p v)) | None => Throw DomainError end)
      by (unfold processArg; rewrite E4, E5, E6, E7, E8; reflexivity).
    assert (B : charTypeArgs (pConv p) arg = None -> shape p (arg :: r)).
    { intro K. apply sh_bad. cbn [readList]. rewrite E1, E2, E3, Z, K. reflexivity. }
    apply dashed_hd in E8. destruct arg as [|x [|c [|? ?]]]; try discriminate E8; try (apply B; reflexivity).
    injection E8 as ->. destruct (char_type_args (pConv p) c) as [(t & L & _)|[(t & L & _)|(_ & _ & K)]]; [| |exact (B K)].
    + change ([45; c] :: r) with ([[45; c]] ++ r). apply shape_cons with (ITarget t); [constructor; exact L|exact Logic.I|]. apply IH. lia.
    + change ([45; c] :: r) with ([[45; c]] ++ r). apply shape_cons with (ISource t); [constructor; exact L|exact Logic.I|]. apply IH. lia.
  - change (arg :: r) with ([arg] ++ r). apply shape_cons with (IText arg); [constructor|exact Logic.I|apply IH; lia].
    intro K. apply dashed_hd in K. congruence.
Qed.

(** ** what was collected *)
Lemma fold_modes : forall is p, 
  pInteractive (fold_left apply is p) = pInteractive p || existsb (fun m => match m with MInteractive => true | _ => false end) (modes is)
  /\ pSuppress (fold_left apply is p) = pSuppress p || existsb (fun m => match m with MNoNewline => true | _ => false end) (modes is)
  /\ pKana (fold_left apply is p) = pKana p || existsb (fun m => match m with MChart => true | _ => false end) (modes is)
  /\ pMarkdown (fold_left apply is p) = pMarkdown p || existsb (fun m => match m with MMarkdown => true | _ => false end) (modes is)
  /\ pStrings (fold_left apply is p) = pStrings p ++ texts is.
Proof.
  induction is as [|x is IH]; intro p.
  { cbn. rewrite !orb_false_r, app_nil_r. auto. }
  cbn [fold_left]. destruct (IH (apply p x)) as (H1 & H2 & H3 & H4 & H5). rewrite H1, H2, H3, H4, H5.
  destruct x as [[]|t|t|n|s]; unfold modes, texts; cbn; rewrite ?orb_false_r, ?orb_true_r, <- ?app_assoc; auto 10.
Qed.
Lemma fold_conv : forall is, Forall (fun x => match x with IFlag n => n < 4 | _ => True end) is ->
  conv_of is (pConv (fold_left apply is noProg)).
Proof.
  intro is. induction is as [|x is IH] using rev_ind; intro F.
  { unfold conv_of. cbn. repeat split; [intro H; discriminate|intros []]. }
  apply Forall_app in F. destruct F as [F1 F2]. apply Forall_cons_iff in F2. destruct F2 as [F2 _].
  destruct (IH F1) as (H1 & H2 & H3). rewrite fold_left_app. cbn [fold_left]. set (p := fold_left apply is noProg) in *.
  unfold conv_of, targets, sources. rewrite !flat_map_app. fold (targets is) (sources is). rewrite map_app.
  destruct x as [m|t|t|n|s]; cbn [flat_map app map]; rewrite ?app_nil_r.
  - assert (E : pConv (apply p (IMode m)) = pConv p) by (destruct m; reflexivity). rewrite E.
    split; [exact H1|]. split; [exact H2|]. intro k. rewrite H3, in_app_iff. split; [auto|intros [K|[K|[]]]; [exact K|discriminate]].
  - cbn. rewrite last_last. split; [reflexivity|]. split; [exact H2|]. intro k. rewrite H3, in_app_iff. split; [auto|intros [K|[K|[]]]; [exact K|discriminate]].
  - cbn. rewrite last_last. split; [exact H1|]. split; [reflexivity|]. intro k. rewrite H3, in_app_iff. split; [auto|intros [K|[K|[]]]; [exact K|discriminate]].
  - cbn [apply withConv pConv setFlag cTarget cSource cFlags]. split; [exact H1|]. split; [exact H2|]. intro k. rewrite N.lor_spec, orb_true_iff, H3, in_app_iff.
    rewrite N.pow2_bits_eqb, N.eqb_eq. split; [intros [K|K]; [left; exact K|right; left; congruence]|intros [K|[K|[]]]; [left; exact K|right; congruence]].
  - cbn. split; [exact H1|]. split; [exact H2|]. intro k. rewrite H3, in_app_iff. split; [auto|intros [K|[K|[]]]; [exact K|discriminate]].
Qed.
Lemma spells_flags : forall is l, spells is l -> Forall (fun x => match x with IFlag n => n < 4 | _ => True end) is.
Proof.
  intros is l H. induction H as [|x a is l S H IH]; constructor; [|exact IH]. destruct S as [| | | |c t L|c t L|c n L|s L]; try exact Logic.I.
  destruct L; lia.
Qed.
Lemma conv_unique : forall is v1 v2, conv_of is v1 -> conv_of is v2 -> v1 = v2.
Proof.
  intros is [s1 t1 f1] [s2 t2 f2] (A1 & A2 & A3) (B1 & B2 & B3). cbn [cTarget cSource cFlags] in *. f_equal; [congruence|congruence|].
  apply N.bits_inj. intro n. specialize (A3 n). specialize (B3 n). destruct (N.testbit f1 n), (N.testbit f2 n); try reflexivity.
  - symmetry. apply B3. apply A3. reflexivity.
  - apply A3. apply B3. reflexivity.
Qed.

(** ** the plan *)
Definition plan (terminal : bool) (o : option Prog) : out task :=
  match o with
  | None => Val TUsage
  | Some p =>
      match pStrings p with
      | _ :: _ => if pInteractive p || pKana p || pMarkdown p then Throw DomainError else Val (TStrings (pConv p) (pStrings p))
      | [] => if pKana p || pMarkdown p then Val (TChart (pMarkdown p))
              else if terminal && negb (pInteractive p) then Throw DomainError
              else Val (TInput (pInteractive p) (negb (pSuppress p)) (pConv p))
      end
  end.
Definition perform (ltr : bool) (fuel : nat) (i : istream) (t : task) : W unit :=
  match t with
  | TUsage => say (usage true)
  | TStrings v l => startStrings ltr v l
  | TChart m => printKanaChart m
  | TInput a n v => getInput ltr fuel a (negb n) v i
  end.
Lemma program_plan : forall ltr fuel a terminal i,
  program ltr fuel a terminal i = wbind (lift (o <- readProgram fuel a ;; plan terminal o)) (perform ltr fuel i).
Proof.
  intros ltr fuel a terminal i. unfold program. destruct (readProgram fuel a) as [o|e| |]; [|reflexivity|reflexivity|reflexivity].
  cbn [obind wbind lift]. destruct o as [p|]; [|reflexivity]. cbn [plan].
  destruct (pStrings p).
  - destruct (pKana p || pMarkdown p); [reflexivity|]. destruct (terminal && negb (pInteractive p)); [reflexivity|].
    cbn [wbind lift perform]. rewrite negb_involutive. reflexivity.
  - destruct (pInteractive p || pKana p || pMarkdown p); reflexivity.
Qed.

Lemma asks_read : forall l is ss, asks l is ss -> exists p, readList l noProg = Val (Some p)
  /\ pStrings p = ss /\ conv_of is (pConv p)
  /\ pInteractive p = existsb (fun m => match m with MInteractive => true | _ => false end) (modes is)
  /\ pSuppress p = existsb (fun m => match m with MNoNewline => true | _ => false end) (modes is)
  /\ pKana p = existsb (fun m => match m with MChart => true | _ => false end) (modes is)
  /\ pMarkdown p = existsb (fun m => match m with MMarkdown => true | _ => false end) (modes is).
Proof.
  intros l is ss [Hm [[S ->]|(l1 & r & -> & S & ->)]].
  - exists (fold_left apply is noProg). pose proof (spells_read is l S noProg [] ltac:(unfold fits; cbn; lia)) as E. rewrite app_nil_r in E.
    split; [exact E|]. destruct (fold_modes is noProg) as (H1 & H2 & H3 & H4 & H5). split; [exact H5|].
    split; [apply fold_conv; eapply spells_flags; exact S|]. auto.
  - exists (withStrings (fold_left apply is noProg) r). pose proof (spells_read is l1 S noProg (b_ "--" :: r) ltac:(unfold fits; cbn; lia)) as E.
    split; [exact E|]. destruct (fold_modes is noProg) as (H1 & H2 & H3 & H4 & H5). cbn [withStrings pStrings pConv pInteractive pSuppress pKana pMarkdown].
    rewrite H5. split; [reflexivity|]. split; [apply fold_conv; eapply spells_flags; exact S|]. auto.
Qed.
Lemma command_plan : forall terminal l t, command terminal l t -> (o <- readList l noProg ;; plan terminal o) = Val t.
Proof.
  intros terminal l t H. destruct H as [is l r Hm S|is l ss v A Hs M C|is l A M|is l A M|is l v A M C|is l v T A M C|is l v T A M C].
  - rewrite (spells_read is l S noProg (b_ "-?" :: r)) by (unfold fits; cbn; lia). reflexivity.
  - destruct (asks_read _ _ _ A) as (p & E & E1 & E2 & E3 & E4 & E5 & E6). rewrite E. cbn [obind plan]. rewrite E1, E3, E5, E6.
    rewrite (conv_unique _ _ _ E2 C). destruct ss; [congruence|]. destruct M as [->| ->]; reflexivity.
  - destruct (asks_read _ _ _ A) as (p & E & E1 & E2 & E3 & E4 & E5 & E6). rewrite E. cbn [obind plan]. rewrite E1, E3, E5, E6, M. reflexivity.
  - destruct (asks_read _ _ _ A) as (p & E & E1 & E2 & E3 & E4 & E5 & E6). rewrite E. cbn [obind plan]. rewrite E1, E3, E5, E6, M. reflexivity.
  - destruct (asks_read _ _ _ A) as (p & E & E1 & E2 & E3 & E4 & E5 & E6). rewrite E. cbn [obind plan]. rewrite E1, E3, E4, E5, E6, M.
    rewrite (conv_unique _ _ _ E2 C). cbn. rewrite andb_false_r. reflexivity.
  - destruct (asks_read _ _ _ A) as (p & E & E1 & E2 & E3 & E4 & E5 & E6). rewrite E. cbn [obind plan]. rewrite E1, E3, E4, E5, E6, M, T.
    rewrite (conv_unique _ _ _ E2 C). reflexivity.
  - destruct (asks_read _ _ _ A) as (p & E & E1 & E2 & E3 & E4 & E5 & E6). rewrite E. cbn [obind plan]. rewrite E1, E3, E4, E5, E6, M, T.
    rewrite (conv_unique _ _ _ E2 C). reflexivity.
Qed.
Lemma asks_command : forall terminal l is ss, asks l is ss ->
  (exists t, command terminal l t) \/ (o <- readList l noProg ;; plan terminal o) = Throw DomainError.
Proof.
  intros terminal l is ss A. destruct (asks_read _ _ _ A) as (p & E & E1 & E2 & E3 & E4 & E5 & E6). rewrite E. cbn [obind plan].
  rewrite E1, E3, E5, E6. pose proof (proj1 A) as Hm. destruct (modes is) as [|m [|? ?]] eqn:M; [| |cbn in Hm; lia].
  - destruct ss as [|s ss].
    + destruct terminal; [right; reflexivity|]. left. eexists. eapply cmd_input; eauto.
    + left. eexists. eapply cmd_strings; eauto. discriminate.
  - destruct m; destruct ss as [|s ss]; cbn [existsb orb].
    + left. eexists. eapply cmd_interactive; eauto.
    + right. reflexivity.
    + left. eexists. eapply cmd_markdown; eauto.
    + right. reflexivity.
    + destruct terminal; [right; reflexivity|]. left. eexists. eapply cmd_input_n; eauto.
    + left. eexists. eapply cmd_strings; eauto. discriminate.
    + left. eexists. eapply cmd_chart; eauto.
    + right. reflexivity.
Qed.
Lemma planned : forall terminal l,
  (exists t, command terminal l t) \/ (o <- readList l noProg ;; plan terminal o) = Throw DomainError.
Proof.
  intros terminal l. destruct (shapes (length l) l noProg (le_n _)) as [is S F|is l1 r -> S F|is l1 r -> S F|E].
  - apply asks_command with is (texts is). split; [unfold fits in F; cbn in F; lia|left; auto].
  - apply asks_command with is (texts is ++ r). split; [unfold fits in F; cbn in F; lia|right; eauto].
  - left. eexists. eapply cmd_usage; [|exact S]. unfold fits in F; cbn in F; lia.
  - right. rewrite E. reflexivity.
Qed.
