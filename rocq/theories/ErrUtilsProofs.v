(** Proofs about the messages of the containers in libs/utils. *)
From Verif Require Import BaseFacts EnumProofs ErrArgsModel ErrArgsProps StringProofs.
From Verif Require Import ErrUtilsModel ErrUtilsSpec.
From Verif Require Import ErrBase.
Open Scope N_scope.
Arguments N.mul : simpl never. Arguments N.add : simpl never. Arguments N.sub : simpl never.

(** ** The same functions *)
Lemma checkIndex_same : forall k n i m, plain (checkIndexT k n i m) = checkIndex n i.
Proof. intros. unfold checkIndexT, checkIndex. destruct (n <=? toSize i); reflexivity. Qed.
Lemma setNames_same : forall wn n names, plain (setNamesT wn n names) = setNames wn n names.
Proof.
  intros wn n. induction names as [|x r IH]; [reflexivity|]. cbn [setNamesT setNames]. rewrite plain_bind, IH. destruct (setNames wn n r) as [[m arr]| | |]; try reflexivity. cbn [obind].
  destruct (wn && beq x (b_ "None")); [reflexivity|]. unfold insertNameT, insertName. destruct (findName x m); reflexivity.
Qed.
Lemma create_same : forall c wn names, plain (createEnumT c wn names) = createEnum c wn names.
Proof.
  intros c wn names. unfold createEnumT, createEnum. destruct c; [reflexivity|]. rewrite plain_bind, setNames_same. destruct (setNames wn (len names) names) as [[m arr]| | |]; reflexivity.
Qed.
Lemma baseToString_same : forall wn e x, plain (baseToStringT wn e x) = baseToString wn e x.
Proof.
  intros. unfold baseToStringT, baseToString. rewrite plain_bind, checkIndex_same. destruct (checkIndex _ _) as [i| | |]; try reflexivity. cbn [obind]. destruct (nth_error _ _); reflexivity.
Qed.
Lemma toString_same : forall wn e x, plain (enumToStringT wn e x) = enumToString wn e x.
Proof. intros. unfold enumToStringT, enumToString. destruct (wn && _); [reflexivity|apply baseToString_same]. Qed.
Lemma fromString_same : forall e s, plain (enumFromStringT e s) = enumFromString e s.
Proof. intros. unfold enumFromStringT, enumFromString. destruct (findName _ _); reflexivity. Qed.
Lemma plus_same : forall n i d, plain (iterPlusT n i d) = iterPlus n i d.
Proof. intros. unfold iterPlusT, iterPlus. cbv zeta. destruct (negb _); [reflexivity|]. destruct (_ <? 0)%Z; [reflexivity|]. destruct (n <? _); reflexivity. Qed.
Lemma step_same : forall n i op, plain (iterStepT n i op) = iterStep n i op.
Proof.
  intros n i [| |d|d]; cbn [iterStepT iterStep].
  - destruct (n <=? i); reflexivity.
  - destruct (i =? 0); reflexivity.
  - apply plus_same.
  - destruct (int64_ok (- d)); [apply plus_same|reflexivity].
Qed.
Lemma deref_same : forall n i, plain (iterDerefT n i) = iterDeref n i.
Proof. intros. unfold iterDerefT, iterDeref. destruct (n <=? i); reflexivity. Qed.
Lemma at_same : forall n i d, plain (iterAtT n i d) = iterAt n i d.
Proof. intros. unfold iterAtT, iterAt. rewrite plain_bind, plus_same. destruct (iterPlus n i d); try reflexivity. apply deref_same. Qed.
Lemma get_same : forall V (dflt : V) vals x, plain (mapGetT dflt vals x) = mapGet dflt vals x.
Proof.
  intros. unfold mapGetT, mapGet. destruct (x =? len vals); [reflexivity|]. rewrite plain_bind, checkIndex_same. destruct (checkIndex _ _) as [i| | |]; try reflexivity. cbn [obind]. destruct (nth_error _ _); reflexivity.
Qed.
Lemma set_same : forall V (vals : list V) x v, plain (mapSetT vals x v) = mapSet vals x v.
Proof. intros. unfold mapSetT, mapSet. rewrite plain_bind, checkIndex_same. destruct (checkIndex _ _); reflexivity. Qed.
Lemma symbol_same : forall t st name, (plain (fst (newSymbolT t st name)), snd (newSymbolT t st name)) = newSymbol st name.
Proof.
  intros t st [|c r]; [reflexivity|]. unfold newSymbolT, newSymbol, symGetId. destruct (len (symList st) <? SymbolMax); destruct (lookup (c :: r) (symMap st)); reflexivity.
Qed.
Lemma range_same : forall bs i, plain (rangeAtT bs i) = rangeAt bs i.
Proof. intros. unfold rangeAtT, rangeAt. destruct (rangeSize bs <? i); [reflexivity|]. destruct (nth_error _ _); reflexivity. Qed.
Lemma char_same : forall x neg, plain (toCharIntT true x neg) = toChar_int x neg.
Proof.
  intros x neg. unfold toCharIntT, toChar_int. cbv iota. destruct (neg && (x <? -128)%Z); [reflexivity|]. destruct (negb neg && (x <? 0)%Z); [reflexivity|]. destruct (255 <? x)%Z; reflexivity.
Qed.

(** ** Texts *)
Lemma stringZ_written : forall z, written_int (to_stringZ z) z.
Proof.
  intro z. unfold to_stringZ, written_int. destruct (z <? 0)%Z eqn:E.
  - right. split; [lia|]. exists (to_string (Z.to_N (- z))). split; [apply to_string_written|reflexivity].
  - left. split; [lia|apply to_string_written].
Qed.
Lemma written_int_one : forall t z, written_int t z -> t = to_stringZ z.
Proof.
  intros t z [[H W]|[H (d & W & ->)]]; unfold to_stringZ.
  - replace (z <? 0)%Z with false by lia. exact (written_one _ _ _ W (to_string_written _)).
  - replace (z <? 0)%Z with true by lia. f_equal. exact (written_one _ _ _ W (to_string_written _)).
Qed.
Lemma index_says : forall k n i m e w, checkIndexT k n i m = Says e w <->
  e = RangeError /\ (Z.of_N n <= i mod 256)%Z /\ w = m ++ (if k then b_ "enum value " ++ to_string (toSize i) else to_stringZ i) ++ RangeMsg.
Proof.
  intros k n i m e w. unfold checkIndexT. assert (X : Z.of_N (toSize i) = (i mod 256)%Z) by (unfold toSize; pose proof (Z.mod_pos_bound i 256); lia).
  destruct (n <=? toSize i) eqn:E.
  - split; [intro H; inversion H; subst; repeat split; lia|]. intros (-> & _ & ->). reflexivity.
  - split; [intro H; discriminate H|]. intros (_ & H & _). lia.
Qed.

(** ** Creating *)
Lemma good_tail : forall wn x r, good_names wn (x :: r) <-> good_names wn r /\ ~ In x r /\ (wn = true -> x <> b_ "None").
Proof.
  intros wn x r. unfold good_names. split.
  - intros [H H2]. inversion H; subst. split; [split; [assumption|]|split; [assumption|]].
    + intros W I. apply (H2 W). right. exact I.
    + intros W ->. apply (H2 W). left. reflexivity.
  - intros ([H1 H2] & H3 & H4). split; [constructor; assumption|]. intros W [I|I]; [apply (H4 W I)|apply (H2 W I)].
Qed.
(** the names in the map are those that were set *)
Lemma set_names : forall wn n names m arr, setNamesT wn n names = Got (m, arr) -> good_names wn names /\ forall x, findName x m = None <-> ~ In x names.
Proof.
  intros wn n. induction names as [|a r IH]; intros m arr H; cbn [setNamesT] in H.
  - inversion H; subst. split; [split; [constructor|intros _ []]|]. intro x. cbn. tauto.
  - destruct (setNamesT wn n r) as [[m1 arr1]| | |] eqn:E; try discriminate H. cbn [rbind] in H. destruct (IH _ _ eq_refl) as [G F].
    destruct (wn && beq a (b_ "None")) eqn:Na; [discriminate H|]. cbv zeta in H. unfold insertNameT in H. destruct (findName a m1) eqn:Fa; [discriminate H|]. cbn [rbind] in H.
    assert (Hm : m = (a, n - 1 - len r) :: m1) by congruence. subst m. clear H. apply F in Fa. split.
    + apply good_tail. split; [exact G|]. split; [exact Fa|]. intros -> ->. rewrite beq_refl in Na. discriminate Na.
    + intro x. rewrite findName_cons. destruct (beq a x) eqn:B1.
      * apply beq_eq in B1. subst. split; [discriminate|]. intro X. exfalso. apply X. left. reflexivity.
      * rewrite F. split; [intros X [Y|Y]; [subst; rewrite beq_refl in B1; discriminate B1|contradiction]|]. intros X Y. apply X. right. exact Y.
Qed.
Lemma set_defined : forall wn n names, setNamesT wn n names <> Undefined /\ setNamesT wn n names <> Unfinished.
Proof.
  intros wn n. induction names as [|a r [IH1 IH2]]; [split; discriminate|]. cbn [setNamesT]. destruct (setNamesT wn n r) as [[m arr]| | |]; cbn [rbind]; [|split; discriminate|contradiction|contradiction].
  destruct (wn && _); [split; discriminate|]. unfold insertNameT. cbv zeta. destruct (findName a m); split; discriminate.
Qed.
Lemma good_suffix : forall wn a b, good_names wn (a ++ b) -> good_names wn b.
Proof. intros wn a b. induction a as [|x a IH]; [exact (fun H => H)|]. intro H. apply (proj1 (good_tail _ _ _)) in H. apply IH, H. Qed.
Lemma says_bad : forall wn r w, create_says false wn r w -> ~ good_names wn r.
Proof.
  intros wn r w T G. inversion T as [Hc|before behind _ Hw X Y|before name behind _ X Y Z0 Z1]; [discriminate Hc| |]; rewrite X in G; apply good_suffix, (proj1 (good_tail _ _ _)) in G; destruct G as (_ & G1 & G2).
  - exact (G2 Hw eq_refl).
  - contradiction.
Qed.
Lemma names_say : forall wn n names e w, setNamesT wn n names = Says e w <-> e = DomainError /\ create_says false wn names w.
Proof.
  intros wn n. induction names as [|a r IH]; intros e w.
  - cbn [setNamesT]. split; [discriminate|]. intros [_ H]. inversion H; try discriminate; destruct before; discriminate.
  - cbn [setNamesT]. destruct (setNamesT wn n r) as [[m arr]|e' w'| |] eqn:E; cbn [rbind].
    + destruct (set_names _ _ _ _ _ E) as [G F].
      assert (Only : forall before x behind, a :: r = before ++ x :: behind -> ~ good_names wn (x :: behind) -> before = [] /\ x = a /\ behind = r).
      { intros [|b before] x behind X Y; [inversion X; subst; auto|]. exfalso. inversion X; subst. apply Y. clear -G. induction before as [|c before IHb]; [exact G|]. apply IHb. apply (proj1 (good_tail _ _ _)) in G. apply G. }
      destruct (wn && beq a (b_ "None")) eqn:Na.
      * apply Bool.andb_true_iff in Na. destruct Na as [Hw Ha]. apply beq_eq in Ha. subst a wn. split.
        -- intro H. assert (e = DomainError /\ w = b_ "'None' should not be specified") as [-> ->] by (split; congruence). split; [reflexivity|]. exact (says_none _ _ _ [] r eq_refl eq_refl eq_refl G).
        -- intros [-> H]. inversion H as [Hc|before behind _ _ X Y|before name behind _ X Y Z0 Z1]; [discriminate Hc|reflexivity|].
           destruct (Only before name behind X) as (_ & -> & _); [intro K; apply (proj1 (good_tail _ _ _)) in K; destruct K as (_ & K & _); contradiction|]. exfalso. exact (Z0 eq_refl eq_refl).
      * assert (Hna : wn = true -> a <> b_ "None") by (intros -> ->; rewrite beq_refl in Na; discriminate Na).
        unfold insertNameT. cbv zeta. destruct (findName a m) eqn:Fa; cbn [rbind].
        -- assert (I : In a r) by (destruct (in_dec (list_eq_dec N.eq_dec) a r) as [I|I]; [exact I|apply F in I; congruence]). split.
           ++ intro H. assert (e = DomainError /\ w = b_ "duplicate name '" ++ a ++ b_ "'") as [-> ->] by (split; congruence). split; [reflexivity|]. exact (says_duplicate _ _ _ [] a r eq_refl eq_refl G Hna I).
           ++ intros [-> H]. inversion H as [Hc|before behind _ Hw X Y|before name behind _ X Y Z0 Z1]; [discriminate Hc| |].
              ** exfalso. destruct (Only before (b_ "None") behind X) as (_ & K & _); [intro K; apply (proj1 (good_tail _ _ _)) in K; destruct K as (_ & _ & K); exact (K Hw eq_refl)|]. exact (Hna Hw (eq_sym K)).
              ** destruct (Only before name behind X) as (_ & -> & _); [intro K; apply (proj1 (good_tail _ _ _)) in K; destruct K as (_ & K & _); contradiction|]. reflexivity.
        -- apply F in Fa. split; [intro H; discriminate H|]. intros [_ H]. exfalso.
           inversion H as [Hc|before behind _ Hw X Y|before name behind _ X Y Z0 Z1]; [discriminate Hc| |].
           ++ destruct (Only before (b_ "None") behind X) as (_ & K & _); [intro K; apply (proj1 (good_tail _ _ _)) in K; destruct K as (_ & _ & K); exact (K Hw eq_refl)|]. exact (Hna Hw (eq_sym K)).
           ++ destruct (Only before name behind X) as (_ & -> & ->); [intro K; apply (proj1 (good_tail _ _ _)) in K; destruct K as (_ & K & _); contradiction|]. contradiction.
    + assert (Tail : create_says false wn r w' /\ e' = DomainError) by (destruct (proj1 (IH e' w') eq_refl); auto). destruct Tail as [T ->]. split.
      * intro H. assert (e = DomainError /\ w = w') as [-> ->] by (split; congruence). split; [reflexivity|].
        inversion T as [Hc|before behind _ Hw X Y|before name behind _ X Y Z0 Z1]; [discriminate Hc| |].
        -- apply (says_none _ _ _ (a :: before) behind eq_refl Hw); [rewrite X; reflexivity|exact Y].
        -- apply (says_duplicate _ _ _ (a :: before) name behind eq_refl); [rewrite X; reflexivity|exact Y|exact Z0|exact Z1].
      * intros [-> H]. pose proof (says_bad _ _ _ T) as Bad.
        assert (T2 : create_says false wn r w).
        { inversion H as [Hc|[|b before] behind _ Hw X Y|[|b before] name behind _ X Y Z0 Z1]; [discriminate Hc| | | |].
          - exfalso. apply Bad. cbn [app] in X. assert (r = behind) as -> by congruence. exact Y.
          - apply (says_none _ _ _ before behind eq_refl Hw); [cbn [app] in X; congruence|exact Y].
          - exfalso. apply Bad. cbn [app] in X. assert (r = behind) as -> by congruence. exact Y.
          - apply (says_duplicate _ _ _ before name behind eq_refl); [cbn [app] in X; congruence|exact Y|exact Z0|exact Z1]. }
        exact (proj2 (IH DomainError w) (conj eq_refl T2)).
    + destruct (proj1 (set_defined wn n r) E).
    + destruct (proj2 (set_defined wn n r) E).
Qed.
Lemma create_cases : forall c wn names e w, createEnumT c wn names = Says e w <-> e = DomainError /\ create_says c wn names w.
Proof.
  intros c wn names e w. unfold createEnumT. destruct c.
  - split; [intro H; assert (e = DomainError /\ w = b_ "'create' should only be called once") as [-> ->] by (split; congruence); split; [reflexivity|constructor; reflexivity]|].
    intros [-> H]. inversion H as [Hc|before behind Hc|before name behind Hc]; [reflexivity|discriminate Hc|discriminate Hc].
  - rewrite <- (names_say wn (len names)). destruct (setNamesT wn (len names) names) as [[m arr]|e' w'| |] eqn:E; cbn [rbind].
    + split; discriminate.
    + split; intro H; congruence.
    + split; discriminate.
    + split; discriminate.
Qed.
Lemma create_got : forall c wn names, (exists e, createEnumT c wn names = Got e) <-> c = false /\ good_names wn names.
Proof.
  intros c wn names. destruct (create_spec c wn names) as [H1 H2]. rewrite <- create_same in H1, H2. split.
  - intros [e E]. destruct c; [discriminate E|]. split; [reflexivity|]. unfold createEnumT in E. destruct (setNamesT wn (len names) names) as [[m arr]| | |] eqn:E2; try discriminate E. exact (proj1 (set_names _ _ _ _ _ E2)).
  - intros [-> G]. destruct (H1 eq_refl G) as (e & X & _). exists e. destruct (createEnumT false wn names); try discriminate X. cbn in X. congruence.
Qed.
Lemma create_names : forall c wn names e, createEnumT c wn names = Got e -> enumNames e = names.
Proof.
  intros c wn names e E. destruct (proj1 (create_got c wn names) (ex_intro _ e E)) as [-> G]. destruct (proj1 (create_spec false wn names) eq_refl G) as (e' & X & Y & _).
  rewrite <- create_same, E in X. cbn in X. congruence.
Qed.
Lemma create_one : forall c wn names w w', create_says c wn names w -> create_says c wn names w' -> w = w'.
Proof.
  intros c wn names w w' H H'. pose proof (proj2 (create_cases c wn names DomainError w) (conj eq_refl H)) as E. rewrite (proj2 (create_cases c wn names DomainError w') (conj eq_refl H')) in E. congruence.
Qed.
Lemma create_total : forall wn names, good_names wn names \/ exists w, create_says false wn names w.
Proof.
  intros wn names. destruct (setNamesT wn (len names) names) as [[m arr]|e w| |] eqn:E.
  - left. exact (proj1 (set_names _ _ _ _ _ E)).
  - right. exists w. apply (proj1 (names_say _ _ _ _ _) E).
  - destruct (proj1 (set_defined _ _ _) E).
  - destruct (proj2 (set_defined _ _ _) E).
Qed.

(** ** The object *)
Lemma run_snoc : forall wn ops st op, enumRun wn st (ops ++ [op]) = match op with Create names => snd (create wn (enumRun wn st ops) names) | Destroy => None end.
Proof. intros wn ops. induction ops as [|[names|] r IH]; intros st op; [destruct op; reflexivity| |]; cbn [app enumRun]; apply IH. Qed.
Lemma object : forall wn ops x, exists_after wn ops x <-> option_map enumNames (enumRun wn None ops) = x.
Proof.
  assert (F : forall wn ops, exists_after wn ops (option_map enumNames (enumRun wn None ops))).
  { intros wn ops. induction ops as [|op ops IH] using rev_ind; [constructor|]. rewrite run_snoc. destruct op as [names|]; [|eapply after_destroy; exact IH].
    unfold create. destruct (enumRun wn None ops) as [e|]; cbn [option_map snd] in *; [apply after_again; exact IH|].
    destruct (createEnumT false wn names) as [e|e w| |] eqn:E; cbn [option_map].
    - rewrite (create_names _ _ _ _ E). apply after_create; [exact IH|]. exact (proj2 (proj1 (create_got _ _ _) (ex_intro _ e E))).
    - apply after_refused; [exact IH|]. apply (proj1 (create_cases _ _ _ _ _)) in E. exact (says_bad _ _ _ (proj2 E)).
    - exfalso. unfold createEnumT in E. destruct (setNamesT wn (len names) names) as [[m arr]| | |] eqn:E2; try discriminate E. exact (proj1 (set_defined _ _ _) E2).
    - exfalso. unfold createEnumT in E. destruct (setNamesT wn (len names) names) as [[m arr]| | |] eqn:E2; try discriminate E. exact (proj2 (set_defined _ _ _) E2). }
  intros wn ops x. split; [|intros <-; apply F].
  intro H. induction H as [|ops x H IH|ops names H IH G|ops names H IH G|ops names x H IH]; [reflexivity| | | |]; rewrite run_snoc; [reflexivity| | |];
    (destruct (enumRun wn None ops) as [e|]; [|]; cbn [option_map] in IH; try discriminate IH); unfold create; cbn [snd option_map].
  - destruct (proj2 (create_got false wn names) (conj eq_refl G)) as [e E]. rewrite E. cbn [option_map]. f_equal. exact (create_names _ _ _ _ E).
  - destruct (createEnumT false wn names) as [e| | |] eqn:E; try reflexivity. destruct (G (proj2 (proj1 (create_got _ _ _) (ex_intro _ e E)))).
  - exact IH.
Qed.

(** ** Iterators *)
Lemma plus_says : forall n i d w, (- 2^63 <= Z.of_N i + d < 2^63)%Z ->
  (iterPlusT n i d = Says RangeError w <->
   (Z.of_N i + d < 0)%Z /\ w = BadBegin \/ (0 <= Z.of_N i + d)%Z /\ (Z.of_N n < (Z.of_N i + d) mod 256)%Z /\ w = BadEnd).
Proof.
  intros n i d w H. unfold iterPlusT, int64_ok. cbv zeta. replace ((- 2 ^ 63 <=? Z.of_N i + d) && (Z.of_N i + d <? 2 ^ 63))%Z with true by lia. cbn [negb].
  assert (X : Z.of_N (toSize (Z.of_N i + d)) = ((Z.of_N i + d) mod 256)%Z) by (unfold toSize; pose proof (Z.mod_pos_bound (Z.of_N i + d) 256); lia).
  destruct (Z.of_N i + d <? 0)%Z eqn:E1.
  - split; [intro K; left; split; [lia|congruence]|]. intros [[_ ->]|[K _]]; [reflexivity|lia].
  - destruct (n <? toSize (Z.of_N i + d)) eqn:E2.
    + split; [intro K; right; split; [lia|split; [lia|congruence]]|]. intros [[K _]|(_ & _ & ->)]; [lia|reflexivity].
    + split; [discriminate|]. intros [[K _]|(_ & K & _)]; lia.
Qed.
Lemma plus_exn : forall n i d e w, iterPlusT n i d = Says e w -> e = RangeError.
Proof. intros n i d e w. unfold iterPlusT. cbv zeta. destruct (negb _); [discriminate|]. destruct (_ <? 0)%Z; [congruence|]. destruct (n <? _); [congruence|discriminate]. Qed.
Lemma stuck_says : forall n i op e w, i <= n -> fits64 i op -> (iterStepT n i op = Says e w <-> e = RangeError /\ stuck n i op w).
Proof.
  assert (P : forall n i op d e w, (op = Plus d \/ op = Minus (- d))%Z -> (- 2^63 <= Z.of_N i + d < 2^63)%Z -> (iterPlusT n i d = Says e w <-> e = RangeError /\ stuck n i op w)).
  { intros n i op d e w O H. split.
    - intro K. pose proof (plus_exn _ _ _ _ _ K) as ->. split; [reflexivity|]. apply (plus_says n i d w H) in K. destruct K as [[K ->]|(K1 & K2 & ->)]; [exact (stuck_before n i op d O K)|exact (stuck_beyond n i op d O K1 K2)].
    - intros [-> K]. apply (plus_says n i d w H).
      assert (Same : forall d', (op = Plus d' \/ op = Minus (- d'))%Z -> d' = d) by (intros d' O'; destruct O as [O|O], O' as [O'|O']; rewrite O in O'; inversion O'; lia).
      inversion K as [E1 E2|E1 E2|op' d' O' K1|op' d' O' K1 K2]; subst.
      + destruct O as [O|O]; discriminate O.
      + destruct O as [O|O]; discriminate O.
      + rewrite (Same _ O') in K1. left. split; [exact K1|reflexivity].
      + rewrite (Same _ O') in K1, K2. right. split; [exact K1|]. split; [exact K2|reflexivity]. }
  intros n i [| |d|d] e w Hi F; cbn [iterStepT fits64] in *.
  - destruct (n <=? i) eqn:E; split.
    + intro K. assert (e = RangeError /\ w = BadEnd) as [-> ->] by (split; congruence). split; [reflexivity|]. apply stuck_end. lia.
    + intros [-> K]. inversion K as [E1|E1|op' d' O' K1|op' d' O' K1 K2]; [reflexivity|destruct O' as [O'|O']; discriminate O'|destruct O' as [O'|O']; discriminate O'].
    + discriminate.
    + intros [-> K]. inversion K as [E1|E1|op' d' O' K1|op' d' O' K1 K2]; [lia|destruct O' as [O'|O']; discriminate O'|destruct O' as [O'|O']; discriminate O'].
  - destruct (i =? 0) eqn:E; split.
    + intro K. assert (e = RangeError /\ w = BadBegin) as [-> ->] by (split; congruence). split; [reflexivity|]. apply stuck_begin. lia.
    + intros [-> K]. inversion K as [E1|E1|op' d' O' K1|op' d' O' K1 K2]; [reflexivity|destruct O' as [O'|O']; discriminate O'|destruct O' as [O'|O']; discriminate O'].
    + discriminate.
    + intros [-> K]. inversion K as [E1|E1|op' d' O' K1|op' d' O' K1 K2]; [lia|destruct O' as [O'|O']; discriminate O'|destruct O' as [O'|O']; discriminate O'].
  - apply (P n i (Plus d) d e w (or_introl eq_refl) F).
  - unfold int64_ok. replace ((- 2 ^ 63 <=? - d) && (- d <? 2 ^ 63))%Z with true by lia. apply (P n i (Minus d) (- d)%Z e w); [right; f_equal; lia|lia].
Qed.
Lemma step_undefined : forall n i op, ~ fits64 i op <-> iterStepT n i op = Undefined.
Proof.
  assert (P : forall n i d, ~ (- 2^63 <= Z.of_N i + d < 2^63)%Z <-> iterPlusT n i d = Undefined).
  { intros n i d. unfold iterPlusT, int64_ok. cbv zeta. destruct ((- 2 ^ 63 <=? Z.of_N i + d) && (Z.of_N i + d <? 2 ^ 63))%Z eqn:E; cbn [negb].
    - split; [intro H; exfalso; apply H; lia|]. destruct (_ <? 0)%Z; [discriminate|]. destruct (n <? _); discriminate.
    - split; [reflexivity|]. intros _ H. lia. }
  intros n i [| |d|d]; cbn [iterStepT fits64].
  - split; [intro H; destruct (H Logic.I)|]. destruct (n <=? i); discriminate.
  - split; [intro H; destruct (H Logic.I)|]. destruct (i =? 0); discriminate.
  - apply P.
  - unfold int64_ok. destruct ((- 2 ^ 63 <=? - d) && (- d <? 2 ^ 63))%Z eqn:E.
    + rewrite <- P. split; intros H K; apply H; lia.
    + split; [reflexivity|]. intros _ [K _]. lia.
Qed.
