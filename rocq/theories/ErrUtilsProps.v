(** C136: the messages of enum lists, maps and iterators; C137: those of symbols, block ranges and toChar. *)
From Verif Require Import BaseFacts EnumProofs ErrArgsModel ErrArgsProps SymbolProps ErrUcdModel StringProps ErrUtilsProofs.
From Verif Require Import ErrUtilsModel ErrUtilsSpec.
From Verif Require Import ErrBase.
Open Scope N_scope.
Arguments N.mul : simpl never. Arguments N.add : simpl never. Arguments N.sub : simpl never.

(** C136: the functions with their messages are those of C10, C11, C48 and C49 *)
Theorem C136_same :
  (forall c wn names, plain (createEnumT c wn names) = createEnum c wn names)
  /\ (forall wn e i, plain (enumAtT wn e i) = enumAt wn e i) /\ (forall wn e x, plain (enumToStringT wn e x) = enumToString wn e x)
  /\ (forall e s, plain (enumFromStringT e s) = enumFromString e s) /\ (forall e s, plain (fromStringAllowEmptyT e s) = fromStringAllowEmpty e s)
  /\ (forall e s, plain (fromStringAllowNoneT e s) = fromStringAllowNone e s) /\ (forall e s, plain (fromStringAllowEmptyAndNoneT e s) = fromStringAllowEmptyAndNone e s)
  /\ (forall n i op, plain (iterStepT n i op) = iterStep n i op) /\ (forall n i, plain (iterDerefT n i) = iterDeref n i) /\ (forall n i d, plain (iterAtT n i d) = iterAt n i d)
  /\ (forall V (dflt : V) vals x, plain (mapGetT dflt vals x) = mapGet dflt vals x) /\ (forall V (vals : list V) x v, plain (mapSetT vals x v) = mapSet vals x v).
Proof.
  split; [exact create_same|]. split; [intros; apply checkIndex_same|]. split; [exact toString_same|]. split; [exact fromString_same|].
  split; [intros e s; unfold fromStringAllowEmptyT, fromStringAllowEmpty; destruct (isEmpty s); [reflexivity|apply fromString_same]|].
  split; [intros e s; unfold fromStringAllowNoneT, fromStringAllowNone; destruct (beq s (b_ "None")); [reflexivity|apply fromString_same]|].
  split; [intros e s; unfold fromStringAllowEmptyAndNoneT, fromStringAllowEmptyAndNone; destruct (isEmpty s || beq s (b_ "None")); [reflexivity|apply fromString_same]|].
  split; [exact step_same|]. split; [exact deref_same|]. split; [exact at_same|]. split; [exact get_same|exact set_same].
Qed.
Print Assumptions C136_same.
(** C136: creating a list tells the last of its names that is wrong, there is one message or none *)
Theorem C136_create : forall created withNone names,
  (forall e w, createEnumT created withNone names = Says e w <-> e = DomainError /\ create_says created withNone names w)
  /\ (forall w w', create_says created withNone names w -> create_says created withNone names w' -> w = w')
  /\ ((exists w, create_says created withNone names w) <-> created = true \/ ~ good_names withNone names).
Proof.
  intros c wn names. split; [exact (create_cases c wn names)|]. split; [exact (create_one c wn names)|]. split.
  - intros [w H]. destruct c; [left; reflexivity|]. right. exact (says_bad _ _ _ H).
  - intros [->|H]; [eexists; constructor; reflexivity|]. destruct c; [eexists; constructor; reflexivity|]. destruct (create_total wn names) as [G|G]; [contradiction|exact G].
Qed.
Print Assumptions C136_create.
(** C136: there is one object at a time, and the global functions use it *)
Theorem C136_object : forall withNone ops,
  (forall x, exists_after withNone ops x <-> option_map enumNames (enumRun withNone None ops) = x)
  /\ (exists_after withNone ops None -> forall x, globalToString withNone (enumRun withNone None ops) x = Says DomainError (b_ "must call 'create' before calling 'instance'"))
  /\ forall names, exists_after withNone ops (Some names) -> forall x name, len names < 255 -> nth_error names (N.to_nat x) = Some name ->
     globalToString withNone (enumRun withNone None ops) x = Got name.
Proof.
  intros wn ops. split; [exact (object wn ops)|]. split.
  - intros H x. apply (proj1 (object _ _ _)) in H. destruct (enumRun wn None ops); [discriminate H|reflexivity].
  - intros names H x name Hl Hx. apply (proj1 (object _ _ _)) in H. destruct (enumRun wn None ops) as [e|]; [|discriminate H]. cbn [option_map] in H. assert (E : enumNames e = names) by congruence.
    unfold globalToString. cbn [instance rbind]. pose proof (toString_same wn e x) as X. rewrite (toString_ok wn e x name) in X; [|rewrite E; destruct wn; lia|rewrite E; exact Hx].
    destruct (enumToStringT wn e x); cbn in X; congruence.
Qed.
Print Assumptions C136_object.
(** C136: an index that is refused is told as it was given, an enum value as its number *)
Theorem C136_index : forall withNone e,
  (forall i x w, enumAtT withNone e i = Says x w <->
     x = RangeError /\ (Z.of_N (enumSize withNone e) <= i mod 256)%Z /\ exists t, written_int t i /\ w = out_of_range (b_ "index") t)
  /\ (forall v x w, v < 256 -> enumSize withNone e <= 256 -> (enumToStringT withNone e v = Says x w <->
     x = RangeError /\ enumSize withNone e <= v /\ exists t, written t v /\ w = out_of_range (b_ "enum") t))
  /\ forall V (dflt : V) vals v x w, v < 256 ->
     (mapGetT dflt vals v = Says x w <-> x = RangeError /\ len vals < v /\ exists t, written t v /\ w = out_of_range (b_ "index") (b_ "enum value " ++ t))
     /\ forall a, mapSetT vals v a = Says x w <-> x = RangeError /\ len vals <= v /\ exists t, written t v /\ w = out_of_range (b_ "index") (b_ "enum value " ++ t).
Proof.
  intros wn e. split; [|split].
  - intros i x w. unfold enumAtT. rewrite index_says. split.
    + intros (-> & H & ->). split; [reflexivity|]. split; [exact H|]. exists (to_stringZ i). split; [apply stringZ_written|reflexivity].
    + intros (-> & H & t & W & ->). rewrite (written_int_one _ _ W). split; [reflexivity|]. split; [exact H|reflexivity].
  - intros v x w Hv Hs. unfold enumToStringT. destruct (wn && (v =? len (enumNames e))) eqn:En.
    + split; [discriminate|]. intros (_ & H & _). apply Bool.andb_true_iff in En. destruct En as [-> En]. unfold enumSize in H. lia.
    + unfold baseToStringT. destruct (checkIndexT false (enumSize wn e) (Z.of_N v) EnumMsg) as [i|x' w'| |] eqn:E; cbn [rbind].
      * assert (Hi : ~ enumSize wn e <= v) by (intro K; assert (X : checkIndexT false (enumSize wn e) (Z.of_N v) EnumMsg = Says RangeError (EnumMsg ++ to_stringZ (Z.of_N v) ++ RangeMsg))
          by (apply index_says; split; [reflexivity|split; [rewrite Z.mod_small by lia; lia|reflexivity]]); congruence).
        split; [destruct (nth_error _ _); discriminate|]. intros (_ & H & _). contradiction.
      * apply index_says in E. destruct E as (-> & H & ->). rewrite Z.mod_small in H by lia. split.
        -- intro K. split; [congruence|]. split; [lia|]. exists (to_string v). split; [apply to_string_written|].
           assert (Hw : w = EnumMsg ++ to_stringZ (Z.of_N v) ++ RangeMsg) by congruence. rewrite Hw. unfold to_stringZ. replace (Z.of_N v <? 0)%Z with false by lia. rewrite N2Z.id. reflexivity.
        -- intros (-> & _ & t & W & ->). rewrite (written_one _ _ _ W (to_string_written v)). unfold to_stringZ. replace (Z.of_N v <? 0)%Z with false by lia. rewrite N2Z.id. reflexivity.
      * unfold checkIndexT in E. destruct (_ <=? _); discriminate E.
      * unfold checkIndexT in E. destruct (_ <=? _); discriminate E.
  - intros V dflt vals v x w Hv.
    assert (Sm : toSize (Z.of_N v) = v) by (apply toSize_small; exact Hv).
    assert (C : forall y, (r <~ checkIndexT true (len vals) (Z.of_N v) IndexMsg ;; y r : res V) = Says x w -> x = RangeError /\ len vals <= v /\ w = IndexMsg ++ (b_ "enum value " ++ to_string v) ++ RangeMsg \/ (v < len vals /\ y v = Says x w)).
    { intros y K. unfold checkIndexT in K. rewrite Sm in K. destruct (len vals <=? v) eqn:E; cbn [rbind] in K; [left; split; [congruence|split; [lia|congruence]]|right; split; [lia|exact K]]. }
    assert (C' : forall B (y : N -> res B), len vals <= v -> (r <~ checkIndexT true (len vals) (Z.of_N v) IndexMsg ;; y r) = Says RangeError (IndexMsg ++ (b_ "enum value " ++ to_string v) ++ RangeMsg)).
    { intros B0 y K. unfold checkIndexT. rewrite Sm. replace (len vals <=? v) with true by lia. reflexivity. }
    split; [|intro a]; split.
    + unfold mapGetT. destruct (v =? len vals) eqn:En; [discriminate|]. intro K. apply C in K. destruct K as [(-> & H & ->)|[_ K]]; [|destruct (nth_error _ _); discriminate K].
      split; [reflexivity|]. split; [lia|]. exists (to_string v). split; [apply to_string_written|reflexivity].
    + intros (-> & H & t & W & ->). rewrite (written_one _ _ _ W (to_string_written v)). unfold mapGetT. replace (v =? len vals) with false by lia. apply C'. lia.
    + unfold mapSetT, checkIndexT. rewrite Sm. destruct (len vals <=? v) eqn:E; cbn [rbind]; [|discriminate]. intro K. split; [congruence|]. split; [lia|]. exists (to_string v). split; [apply to_string_written|].
      assert (w = IndexMsg ++ (b_ "enum value " ++ to_string v) ++ RangeMsg) as -> by congruence. reflexivity.
    + intros (-> & H & t & W & ->). rewrite (written_one _ _ _ W (to_string_written v)). unfold mapSetT. apply C'. exact H.
Qed.
Print Assumptions C136_index.
(** C136: a name that is not one of the list is told *)
Theorem C136_name : forall withNone names e, createEnumT false withNone names = Got e -> forall s x w,
  (enumFromStringT e s = Says x w <-> x = DomainError /\ ~ In s names /\ w = b_ "name '" ++ s ++ b_ "' not found")
  /\ (fromStringAllowEmptyT e s = Says x w <-> x = DomainError /\ ~ In s names /\ s <> [] /\ w = b_ "name '" ++ s ++ b_ "' not found")
  /\ (fromStringAllowNoneT e s = Says x w <-> x = DomainError /\ ~ In s names /\ s <> b_ "None" /\ w = b_ "name '" ++ s ++ b_ "' not found")
  /\ (fromStringAllowEmptyAndNoneT e s = Says x w <-> x = DomainError /\ ~ In s names /\ s <> [] /\ s <> b_ "None" /\ w = b_ "name '" ++ s ++ b_ "' not found").
Proof.
  intros wn names e E s x w.
  assert (F : findName s (nameMap e) = None <-> ~ In s names).
  { unfold createEnumT in E. destruct (setNamesT wn (len names) names) as [[m arr]| | |] eqn:E2; try discriminate E. cbn [rbind] in E. assert (nameMap e = m) as -> by (assert (e = {| nameMap := m; enumNames := arr |}) as -> by congruence; reflexivity).
    exact (proj2 (set_names _ _ _ _ _ E2) s). }
  assert (P : enumFromStringT e s = Says x w <-> x = DomainError /\ ~ In s names /\ w = b_ "name '" ++ s ++ b_ "' not found").
  { unfold enumFromStringT. destruct (findName s (nameMap e)); split.
    - discriminate.
    - intros (_ & K & _). apply F in K. discriminate K.
    - intro K. split; [congruence|]. split; [apply F; reflexivity|congruence].
    - intros (-> & _ & ->). reflexivity. }
  assert (Em : isEmpty s = true <-> s = []) by (destruct s; split; (reflexivity || discriminate)).
  assert (Nn : beq s (b_ "None") = true <-> s = b_ "None") by (split; [apply beq_eq|intros ->; apply beq_refl]).
  split; [exact P|]. split; [|split].
  - unfold fromStringAllowEmptyT. destruct (isEmpty s); [split; [discriminate|]; intros (_ & _ & K & _); destruct (K (proj1 Em eq_refl))|]. rewrite P. split.
    + intros (-> & K & ->). repeat (split; [reflexivity || assumption|]). split; [intro X; apply Em in X; discriminate X|reflexivity].
    + intros (-> & K & _ & ->). auto.
  - unfold fromStringAllowNoneT. destruct (beq s (b_ "None")); [split; [discriminate|]; intros (_ & _ & K & _); destruct (K (proj1 Nn eq_refl))|]. rewrite P. split.
    + intros (-> & K & ->). repeat (split; [reflexivity || assumption|]). split; [intro X; apply Nn in X; discriminate X|reflexivity].
    + intros (-> & K & _ & ->). auto.
  - unfold fromStringAllowEmptyAndNoneT. destruct (isEmpty s || beq s (b_ "None")) eqn:O.
    + split; [discriminate|]. intros (_ & _ & K1 & K2 & _). apply Bool.orb_true_iff in O. destruct O as [O|O]; [destruct (K1 (proj1 Em O))|destruct (K2 (proj1 Nn O))].
    + rewrite P. apply Bool.orb_false_iff in O. destruct O as [O1 O2]. split.
      * intros (-> & K & ->). split; [reflexivity|]. split; [exact K|]. split; [intro X; apply Em in X; congruence|]. split; [intro X; apply Nn in X; congruence|reflexivity].
      * intros (-> & K & _ & _ & ->). auto.
Qed.
Print Assumptions C136_name.
(** C136: an iterator that cannot move tells at which end it is; reading the end is told with the position *)
Theorem C136_iterator : forall n i, i <= n ->
  (forall op, (iterStepT n i op = Undefined <-> ~ fits64 i op)
     /\ (fits64 i op -> forall e w, iterStepT n i op = Says e w <-> e = RangeError /\ stuck n i op w))
  /\ forall e w, iterDerefT n i = Says e w <-> e = RangeError /\ i = n /\ exists t, written t n /\ w = out_of_range (b_ "index") t.
Proof.
  intros n i Hi. split.
  - intro op. split; [symmetry; apply step_undefined|]. intros F e w. apply stuck_says; assumption.
  - intros e w. unfold iterDerefT. destruct (n <=? i) eqn:E; split.
    + intro K. split; [congruence|]. assert (i = n) by lia. subst i. split; [reflexivity|]. exists (to_string n). split; [apply to_string_written|].
      assert (w = IndexMsg ++ to_string n ++ RangeMsg) as -> by congruence. reflexivity.
    + intros (-> & -> & t & W & ->). rewrite (written_one _ _ _ W (to_string_written n)). reflexivity.
    + discriminate.
    + intros (_ & -> & _). lia.
Qed.
Print Assumptions C136_iterator.
(** C136: iterators of one map are ordered by their positions, of different maps they cannot be compared *)
Theorem C136_map_iterator : forall a b,
  (itMap a = itMap b ->
     itEq a b = Got (itPos a =? itPos b) /\ itNe a b = Got (negb (itPos a =? itPos b)) /\ itLt a b = Got (itPos a <? itPos b) /\ itLe a b = Got (itPos a <=? itPos b)
     /\ itGt a b = Got (itPos b <? itPos a) /\ itGe a b = Got (itPos b <=? itPos a) /\ itMinus a b = Got (Z.of_N (itPos a) - Z.of_N (itPos b))%Z)
  /\ (itMap a <> itMap b ->
     Forall (fun r => r = Says DomainError (b_ "not comparable")) [itEq a b; itNe a b; itLt a b; itLe a b; itGt a b; itGe a b] /\ itMinus a b = Says DomainError (b_ "not comparable"))
  /\ forall V (dflt : V) maps n, (forall m, len (maps m) = n) -> n < 256 -> itPos a <= n ->
     (itMap a = None -> itDeref dflt maps n a = Says DomainError (b_ "not initialized"))
     /\ forall m, itMap a = Some m ->
        (itPos a = n -> exists t, written t n /\ itDeref dflt maps n a = Says RangeError (out_of_range (b_ "index") t))
        /\ forall v, nth_error (maps m) (N.to_nat (itPos a)) = Some v -> itDeref dflt maps n a = Got v.
Proof.
  intros [ma i] [mb j]. cbn [itMap itPos].
  assert (Sm : sameMap ma mb = true <-> ma = mb) by (destruct ma as [x|], mb as [y|]; cbn [sameMap]; split; try discriminate; try reflexivity; [rewrite N.eqb_eq; congruence|intros [= ->]; apply N.eqb_refl]).
  split; [|split].
  - intro H. apply Sm in H. unfold itGt, itGe, itLe, itNe, itMinus, itLt, itEq, comparable. cbn [itMap itPos]. rewrite H. cbn [rbind].
    repeat (split; [try reflexivity|]); try reflexivity.
    + destruct (i <? j) eqn:E; [f_equal; lia|]. f_equal. lia.
    + destruct (i <? j) eqn:E; cbn [rbind]; f_equal; lia.
    + f_equal. lia.
  - intro H. unfold itGt, itGe, itLe, itNe, itMinus, itLt, itEq, comparable. cbn [itMap itPos]. destruct (sameMap ma mb); [destruct (H (proj1 Sm eq_refl))|]. cbn [rbind].
    split; [|reflexivity]. repeat (apply Forall_cons; [reflexivity|]). apply Forall_nil.
  - intros V dflt maps n Hm Hn Hp. split; [intros ->; reflexivity|]. intros m ->. unfold itDeref. cbn [itMap itPos]. split.
    + intros ->. exists (to_string n). split; [apply to_string_written|]. rewrite N.leb_refl. reflexivity.
    + intros v Hv. assert (i < n) by (assert (N.to_nat i < List.length (maps m))%nat by (apply nth_error_Some; congruence); rewrite <- (Hm m); unfold len; lia). replace (n <=? i) with false by lia.
      pose proof (get_same V dflt (maps m) i) as X. rewrite (mapGet_in V dflt (maps m) i v) in X; [|rewrite Hm; exact Hn|exact Hv]. destruct (mapGetT dflt (maps m) i); cbn in X; congruence.
Qed.
Print Assumptions C136_map_iterator.
Theorem C136_none : forall none x, 0 < none < 256 -> x < 256 ->
  (hasValue none x = true <-> x <> none) /\ (notValue none x = true <-> x = none) /\ (isNextNone none x = true <-> x + 1 = none).
Proof.
  intros none x Hn Hx. unfold notValue, hasValue, isNextNone, toSize. split; [destruct (x =? none) eqn:E; cbn; split; (lia || discriminate || reflexivity)|].
  split; [destruct (x =? none) eqn:E; cbn; split; (lia || discriminate || reflexivity)|]. rewrite N.eqb_eq.
  destruct (N.eq_dec x 255) as [->|N1]; [cbn; lia|]. rewrite Z.mod_small by lia. lia.
Qed.
Print Assumptions C136_none.

(** an enum list with None, a map of three values and iterators *)
Example C136_case : good_names true [b_ "Red"; b_ "Green"] /\ create_says false true [b_ "Red"; b_ "None"; b_ "Green"; b_ "Green"] (b_ "duplicate name 'Green'")
  /\ create_says false true [b_ "Red"; b_ "Red"; b_ "None"; b_ "Blue"] (b_ "'None' should not be specified")
  /\ createEnumT false true [b_ "Red"; b_ "Red"; b_ "None"; b_ "Blue"] = Says DomainError (b_ "'None' should not be specified")
  /\ exists_after false [Create [b_ "A"; b_ "A"]; Create [b_ "A"]; Create [b_ "B"]; Destroy; Create [b_ "C"]] (Some [b_ "C"])
  /\ globalToString false (enumRun false None [Create [b_ "A"]; Create [b_ "B"]]) 0 = Got (b_ "A")
  /\ checkIndexT false 4 (-1) IndexMsg = Says RangeError (b_ "index '-1' is out of range")
  /\ mapSetT [1; 2; 3] 3 5 = Says RangeError (b_ "index 'enum value 3' is out of range")
  /\ stuck 4 3 (Plus 2) (b_ "can't increment past end") /\ fits64 3 (Plus 2) /\ stuck 4 3 (Minus 4) (b_ "can't decrement past zero")
  /\ itLe (MkIter (Some 1) 2) (MkIter (Some 1) 2) = Got true /\ itLe (MkIter (Some 1) 2) (MkIter None 2) = Says DomainError (b_ "not comparable").
Proof.
  assert (G : forall wn l, (forallb (fun x => negb (beq x (b_ "None"))) l && (fix nd l := match l with [] => true | x :: r => negb (existsb (beq x) r) && nd r end) l = true) -> good_names wn l).
  { intros wn l H. apply Bool.andb_true_iff in H. destruct H as [H1 H2]. split.
    - clear H1. induction l as [|x r IH]; [constructor|]. apply Bool.andb_true_iff in H2. destruct H2 as [H2 H3]. constructor; [|exact (IH H3)].
      intro I. apply Bool.negb_true_iff in H2. assert (X : existsb (beq x) r = true) by (apply existsb_exists; exists x; split; [exact I|apply beq_refl]). congruence.
    - intros _ I. rewrite forallb_forall in H1. specialize (H1 _ I). rewrite beq_refl in H1. discriminate H1. }
  split; [apply G; reflexivity|]. split; [exact (says_duplicate false true _ [b_ "Red"; b_ "None"] (b_ "Green") [b_ "Green"] eq_refl eq_refl (G true [b_ "Green"] eq_refl) ltac:(intros _; discriminate) (or_introl eq_refl))|].
  split; [exact (says_none false true _ [b_ "Red"; b_ "Red"] [b_ "Blue"] eq_refl eq_refl eq_refl (G true [b_ "Blue"] eq_refl))|]. split; [vm_compute; reflexivity|].
  split; [apply object; vm_compute; reflexivity|]. split; [vm_compute; reflexivity|]. split; [vm_compute; reflexivity|]. split; [vm_compute; reflexivity|].
  split; [apply (stuck_beyond 4 3 _ 2%Z); [left; reflexivity|lia|vm_compute; reflexivity]|]. split; [cbn; lia|]. split; [apply (stuck_before 4 3 _ (-4)%Z); [right; reflexivity|lia]|]. split; vm_compute; reflexivity.
Qed.

(** C137: the functions with their messages are those of C09, C50 and toChar *)
Theorem C137_same :
  (forall t st name, (plain (fst (newSymbolT t st name)), snd (newSymbolT t st name)) = newSymbol st name)
  /\ (forall bs i, plain (rangeAtT bs i) = rangeAt bs i) /\ forall x neg, plain (toCharIntT true x neg) = toChar_int x neg.
Proof. split; [exact symbol_same|]. split; [exact range_same|exact char_same]. Qed.
Print Assumptions C137_same.
(** C137: a symbol is refused just if its name is new and all are used, with the type and the name *)
Theorem C137_symbol : forall names os st, newSymbols noSymbols names = (os, st) -> forall type name e w,
  fst (newSymbolT type st name) = Says e w <->
  e = DomainError /\ name <> [] /\ symSize st = 65534 /\ symExists st name = false /\ w = type ++ b_ ": can't add '" ++ name ++ b_ "' - max capacity".
Proof.
  intros names os st H type name e w. destruct (C09_symbols_are_a_stable_bijection names os st H) as (_ & _ & _ & M & _).
  unfold newSymbolT, symExists. destruct name as [|c r]; [split; [discriminate|intros (_ & K & _); congruence]|]. unfold symSize in *.
  destruct (len (symList st) <? SymbolMax) eqn:E; unfold SymbolMax in E; destruct (lookup (c :: r) (symMap st)) eqn:F; cbn [fst].
  - split; [discriminate|]. intros (_ & _ & _ & K & _). discriminate K.
  - split; [discriminate|]. intros (_ & _ & K & _). lia.
  - split; [discriminate|]. intros (_ & _ & _ & K & _). discriminate K.
  - split.
    + intro K. split; [congruence|]. split; [discriminate|]. split; [lia|]. split; [reflexivity|congruence].
    + intros (-> & _ & _ & _ & ->). reflexivity.
Qed.
Print Assumptions C137_symbol.
(** C137: an index of a range of blocks *)
Theorem C137_range : forall bs i e w,
  rangeAtT bs i = Says e w <->
  e = RangeError /\ 3 * len bs < i
  /\ exists a b, written a i /\ written b (3 * len bs) /\ w = b_ "index '" ++ a ++ b_ "' is out of range for BlockRange with size '" ++ b ++ b_ "'".
Proof.
  intros bs i e w. unfold rangeAtT. assert (Hs : rangeSize bs = 3 * len bs) by (unfold rangeSize; lia). rewrite Hs. destruct (3 * len bs <? i) eqn:E; split.
  - intro K. split; [congruence|]. split; [lia|]. exists (to_string i), (to_string (3 * len bs)). split; [apply to_string_written|]. split; [apply to_string_written|congruence].
  - intros (-> & _ & a & b & W1 & W2 & ->). rewrite (written_one _ _ _ W1 (to_string_written i)), (written_one _ _ _ W2 (to_string_written _)). reflexivity.
  - destruct (nth_error _ _); discriminate.
  - intros (_ & K & _). lia.
Qed.
Print Assumptions C137_range.
(** C137: toChar of an int gives the low byte of what a char or a byte can hold, other values are told *)
Theorem C137_int : forall signed x neg,
  let first := (if neg && signed then -128 else 0)%Z in
  ((first <= x <= 255)%Z -> toCharIntT signed x neg = Got (Z.to_N (x mod 256)))
  /\ (~ (first <= x <= 255)%Z -> exists t, written_int t x
       /\ toCharIntT signed x neg = Says RangeError ((if negb neg && (x <? 0)%Z then b_ "toChar (positive int)" else b_ "toChar (int)") ++ b_ ": '" ++ t ++ b_ "' out of range")).
Proof.
  intros signed x neg first. unfold toCharIntT, first, outOfRange. split.
  - intro H. destruct neg, signed; cbn [andb negb] in *.
    + replace (x <? -128)%Z with false by lia. replace (255 <? x)%Z with false by lia. reflexivity.
    + replace (x <? 0)%Z with false by lia. replace (255 <? x)%Z with false by lia. reflexivity.
    + replace (x <? 0)%Z with false by lia. replace (255 <? x)%Z with false by lia. reflexivity.
    + replace (x <? 0)%Z with false by lia. replace (255 <? x)%Z with false by lia. reflexivity.
  - intro H. exists (to_stringZ x). split; [apply stringZ_written|]. destruct neg, signed; cbn [andb negb] in *.
    + destruct (x <? -128)%Z eqn:E; [reflexivity|]. replace (255 <? x)%Z with true by lia. reflexivity.
    + destruct (x <? 0)%Z eqn:E; [reflexivity|]. replace (255 <? x)%Z with true by lia. reflexivity.
    + destruct (x <? 0)%Z eqn:E; [reflexivity|]. replace (255 <? x)%Z with true by lia. reflexivity.
    + destruct (x <? 0)%Z eqn:E; [reflexivity|]. replace (255 <? x)%Z with true by lia. reflexivity.
Qed.
Print Assumptions C137_int.
(** C137: the other types; a code is told in hexadecimal digits, at least four *)
Theorem C137_unsigned : forall t x,
  (x <= 255 -> toCharT t x = Got x)
  /\ (255 < x -> forall name, In (t, name) [(FromUInt32, b_ "uint32_t"); (FromUInt16, b_ "uint16_t"); (FromSize, b_ "size_t"); (FromCode, b_ "Code")] ->
     exists s, toCharT t x = Says RangeError (b_ "toChar (" ++ name ++ b_ "): '" ++ s ++ b_ "' out of range")
       /\ match t with FromCode => denotes 16 s x /\ min_size s 4 /\ Forall is_lower_hex s | _ => written s x end).
Proof.
  intros t x. unfold toCharT. split; intro H; [replace (255 <? x) with false by lia; reflexivity|]. intros name Hn. replace (255 <? x) with true by lia.
  assert (name = charType t) as -> by (destruct Hn as [Hn|[Hn|[Hn|[Hn|[]]]]]; assert (K := f_equal fst Hn); assert (K2 := f_equal snd Hn); cbn [fst snd] in K, K2; rewrite <- K, <- K2; reflexivity).
  assert (A : forall s, @outOfRange N (b_ "toChar (" ++ charType t ++ b_ ")") s = Says RangeError (b_ "toChar (" ++ charType t ++ b_ "): '" ++ s ++ b_ "' out of range")).
  { intro s. unfold outOfRange. rewrite <- !app_assoc. reflexivity. }
  destruct t; cbn [rbind]; try (exists (to_string x); split; [apply A|apply to_string_written]).
  destruct (C08_to_hex 4 x Lower 4) as (s & E & D & M & F). rewrite (E NoBrackets). cbn [quiet rbind addBrackets]. exists s. split; [apply A|]. split; [exact D|]. split; [exact M|exact F].
Qed.
Print Assumptions C137_unsigned.
Example C137_case : toCharIntT true (-129) true = Says RangeError (b_ "toChar (int): '-129' out of range") /\ toCharIntT true (-128) true = Got 128
  /\ toCharIntT false (-1) true = Says RangeError (b_ "toChar (int): '-1' out of range") /\ toCharIntT true (-1) false = Says RangeError (b_ "toChar (positive int): '-1' out of range")
  /\ toCharT FromCode 256 = Says RangeError (b_ "toChar (Code): '0100' out of range") /\ toCharT FromSize 256 = Says RangeError (b_ "toChar (size_t): '256' out of range")
  /\ rangeAtT KatakanaRange 6 = Got 0 /\ rangeAtT KatakanaRange 7 = Says RangeError (b_ "index '7' is out of range for BlockRange with size '6'")
  /\ (exists names : list bytes, NoDup names /\ ~ In [] names /\ len names = 65534)
  /\ fst (newSymbolT (b_ "T") noSymbols (b_ "x")) = Got 1.
Proof. do 8 (split; [vm_compute; reflexivity|]). split; [exact C09_capacity_example|vm_compute; reflexivity]. Qed.
