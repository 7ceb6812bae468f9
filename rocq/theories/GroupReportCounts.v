(** Lemmas about the reports about groups: counts and types. *)
From Verif Require Import BaseFacts MapProofs DataProofs GroupLoadProofs ReportProofs GroupReportModel GroupReportSpec GroupReportProofs.
Open Scope N_scope.
Arguments N.mul : simpl never. Arguments N.add : simpl never. Arguments N.sub : simpl never.
Arguments N.pow : simpl never. Arguments N.eqb : simpl never. Arguments N.ltb : simpl never. Arguments N.leb : simpl never.

(** * Kanji in several groups *)

Lemma update_last : forall (f : option N -> N) k m, Forall (fun e => blt (fst e) k = true) m -> mupdate f k m = m ++ [(k, f None)].
Proof.
  intros f k m H. induction H as [|[x v] m A H IH]; [reflexivity|]. cbn [mupdate app fst] in *. rewrite IH.
  replace (beq x k) with false by (symmetry; apply beq_neq, blt_neq; exact A). rewrite (blt_asym _ _ A). reflexivity.
Qed.
Lemma update_at_last : forall (f : option N -> N) k v m, Forall (fun e => blt (fst e) k = true) m -> mupdate f k (m ++ [(k, v)]) = m ++ [(k, f (Some v))].
Proof.
  intros f k v m H. induction H as [|[x w] m A H IH]; cbn [app mupdate].
  - rewrite beq_refl. reflexivity.
  - cbn [fst] in A. replace (beq x k) with false by (symmetry; apply beq_neq, blt_neq; exact A). rewrite (blt_asym _ _ A), IH. reflexivity.
Qed.
Lemma find_at_last : forall k (v : N) m, Forall (fun e => blt (fst e) k = true) m -> mfind k (m ++ [(k, v)]) = Some v.
Proof.
  intros k v m H. induction H as [|[x w] m A H IH]; cbn [app mfind].
  - rewrite beq_refl. reflexivity.
  - cbn [fst] in A. replace (beq x k) with false by (symmetry; apply beq_neq, blt_neq; exact A). exact IH.
Qed.
Lemma count_same : forall n rest k v m mx, Forall (fun e => blt (fst e) k = true) m ->
  countKeys (repeat k n ++ rest) k (m ++ [(k, v)]) mx = countKeys rest k (m ++ [(k, v + N.of_nat n)]) (match n with O => mx | _ => N.max mx (v + N.of_nat n) end).
Proof.
  induction n as [|n IH]; intros rest k v m mx H; cbn [repeat app countKeys].
  - replace (v + N.of_nat 0) with v by lia. reflexivity.
  - rewrite beq_refl, update_at_last, find_at_last by exact H. rewrite IH by exact H.
    replace (v + 1 + N.of_nat n) with (v + N.of_nat (S n)) by lia. f_equal.
    destruct (N.ltb_spec mx (v + 1)); destruct n; lia.
Qed.
Lemma count_block : forall n rest prev k m mx, k <> prev -> Forall (fun e => blt (fst e) k = true) m ->
  countKeys (repeat k (S n) ++ rest) prev m mx
  = countKeys rest k (m ++ match n with O => [] | _ => [(k, N.of_nat n)] end) (N.max mx (N.of_nat n)).
Proof.
  intros n rest prev k m mx D H. cbn [repeat app countKeys]. replace (beq k prev) with false by (symmetry; apply beq_neq; exact D).
  destruct n as [|n]; cbn [repeat app]; [rewrite app_nil_r; f_equal; lia|]. cbn [countKeys]. rewrite beq_refl, update_last, find_at_last by exact H.
  rewrite count_same by exact H. replace (1 + N.of_nat n) with (N.of_nat (S n)) by lia. f_equal.
  destruct (N.ltb_spec mx 1); destruct n; lia.
Qed.
(** the entries of the multimap: each name with the number of its groups *)
Definition blocks (l : list (bytes * nat)) : list bytes := flat_map (fun '(k, n) => repeat k (S n)) l.
Definition extra_of (l : list (bytes * nat)) : smap N := map (fun '(k, n) => (k, N.of_nat n)) (filter (fun '(k, n) => negb (Nat.eqb n 0)) l).
Lemma count_keys : forall l prev m mx, StronglySorted (fun a b => blt a b = true) (map fst l) -> ~ In prev (map fst l) ->
  Forall (fun e => Forall (fun k => blt (fst e) k = true) (map fst l)) m ->
  countKeys (blocks l) prev m mx = (m ++ extra_of l, fold_right N.max mx (map (fun e => N.of_nat (snd e)) l)).
Proof.
  induction l as [|[k n] l IH]; intros prev m mx S D H; cbn [blocks flat_map extra_of filter map fold_right fst snd] in *.
  - cbn [countKeys]. rewrite app_nil_r. reflexivity.
  - inversion S as [|x y S1 S2]; subst. fold (blocks l).
    rewrite count_block; [|intro X; apply D; left; exact X|eapply Forall_impl; [|exact H]; intros e F; inversion F; assumption].
    rewrite IH; [|exact S1|intro X; rewrite Forall_forall in S2; specialize (S2 k X); rewrite blt_irrefl in S2; discriminate|].
    + f_equal.
      * rewrite <- app_assoc. f_equal. destruct n; reflexivity.
      * generalize (map (fun e : bytes * nat => N.of_nat (snd e)) l). intro l0. induction l0 as [|a l0 IH0]; cbn [fold_right]; lia.
    + apply Forall_app. split; [eapply Forall_impl; [|exact H]; intros e F; inversion F; assumption|].
      destruct n; constructor; [exact S2|constructor].
Qed.
Lemma names_multi : forall i l, flat_map (fun '(k, c) => if c =? i then b_ " " ++ k else []) (extra_of l)
  = names_of (map fst (filter (fun '(k, n) => negb (Nat.eqb n 0) && (N.of_nat n =? i)) l)).
Proof.
  intros i l. unfold extra_of, names_of. induction l as [|[k n] l IH]; [reflexivity|]. cbn [filter]. destruct (Nat.eqb n 0); cbn [negb andb]; [exact IH|].
  cbn [map flat_map]. rewrite IH. destruct (N.of_nat n =? i); [|reflexivity]. reflexivity.
Qed.
Lemma multiple_lines : forall m n i, multipleLines n i m
  = flat_map (fun j => b_ "  Kanji in " ++ to_string (N.of_nat j + 1) ++ b_ " groups:" ++ flat_map (fun '(k, c) => if c =? N.of_nat j then b_ " " ++ k else []) m ++ [10])
             (seq (N.to_nat i) n).
Proof.
  intros m. induction n as [|n IH]; intro i; [reflexivity|]. cbn [multipleLines seq flat_map]. rewrite IH.
  replace (N.to_nat (i + 1)) with (S (N.to_nat i)) by lia. rewrite N2Nat.id. rewrite <- !app_assoc. reflexivity.
Qed.
(** a sorted list of names with the numbers of their groups *)
Definition counted (gs : list Group) (ns : list bytes) : list (bytes * nat) := map (fun n => (n, N.to_nat (belongs gs n - 1))) ns.
Lemma counted_fst : forall gs ns, map fst (counted gs ns) = ns.
Proof. intros. unfold counted. rewrite map_map. apply map_id. Qed.
Lemma filter_map : forall A B (f : A -> B) p l, filter p (map f l) = map f (filter (fun x => p (f x)) l).
Proof. intros A B f p l. induction l as [|x l IH]; [reflexivity|]. cbn [map filter]. rewrite IH. destruct (p (f x)); reflexivity. Qed.
Lemma unique_names : forall gs ns unique, members_of gs ns -> ~ In [] ns -> (forall n, In n ns -> 1 <= belongs gs n) -> len unique = len ns ->
  existsb (fun n => 1 <? belongs gs n) ns = true ->
  printUniqueNames (blocks (counted gs ns)) unique = several_text gs ns.
Proof.
  intros gs ns unique [S _] E P L X. unfold printUniqueNames, several_text. rewrite X.
  rewrite count_keys by (rewrite ?counted_fst; try assumption; constructor). cbn [app].
  assert (M : len (extra_of (counted gs ns)) = count (fun n => 1 <? belongs gs n) ns).
  { unfold extra_of, counted, count. rewrite filter_map. unfold len. rewrite !map_length. do 2 f_equal. apply filter_ext_in. intros n I. specialize (P n I).
    destruct (Nat.eqb_spec (N.to_nat (belongs gs n - 1)) 0); destruct (N.ltb_spec 1 (belongs gs n)); try reflexivity; lia. }
  assert (Q : count (fun n => belongs gs n =? 1) ns + count (fun n => 1 <? belongs gs n) ns = len ns).
  { clear -P. induction ns as [|n ns IH]; [reflexivity|]. rewrite !count_cons, len_cons. rewrite <- IH by (intros x I; apply P; right; exact I).
    pose proof (P n (or_introl eq_refl)). destruct (N.eqb_spec (belongs gs n) 1); destruct (N.ltb_spec 1 (belongs gs n)); lia. }
  rewrite M, L. rewrite sub64_le by lia. replace (len ns - count (fun n => 1 <? belongs gs n) ns) with (count (fun n => belongs gs n =? 1) ns) by lia.
  unfold line. change (logText false) with (b_ ">>> "). rewrite <- !app_assoc. repeat f_equal.
  apply (f_equal (cons 10)). rewrite multiple_lines. unfold upto. change (N.to_nat 1) with 1%nat. change (N.to_nat 2) with 2%nat.
  assert (R : N.to_nat (fold_right N.max 0 (map (fun e => N.of_nat (snd e)) (counted gs ns))) = N.to_nat (most gs ns + 1 - 2)).
  { f_equal. unfold counted, most. rewrite map_map. cbn [snd]. clear. induction ns as [|n ns IH]; [reflexivity|]. cbn [map fold_right]. rewrite IH. rewrite N2Nat.id. lia. }
  rewrite R, <- (seq_shift _ 1). generalize (N.to_nat (most gs ns + 1 - 2)). intro z.
  assert (K : forall j, In j (seq 1 z) -> (1 <= j)%nat) by (intros j I; apply in_seq in I; lia). revert K. generalize (seq 1 z). intros l K.
  induction l as [|j l IH]; [reflexivity|]. cbn [flat_map map]. rewrite IH by (intros x I; apply K; right; exact I). pose proof (K j (or_introl eq_refl)) as J.
  replace (N.of_nat j + 1) with (N.of_nat (Datatypes.S j)) by lia. repeat f_equal. rewrite names_multi. f_equal. unfold counted. rewrite filter_map, map_map. cbn [fst]. rewrite map_id.
  apply filter_ext_in. intros n I. specialize (P n I).
  destruct (Nat.eqb_spec (N.to_nat (belongs gs n - 1)) 0); cbn [negb andb]; rewrite ?N2Nat.id;
    destruct (N.eqb_spec (belongs gs n) (N.of_nat (Datatypes.S j))); try destruct (N.eqb_spec (belongs gs n - 1) (N.of_nat j)); try reflexivity; lia.
Qed.

(** * Numbers of memberships *)

Lemma memberships_iff : forall gs n, In n (memberships gs) <-> exists g, In g gs /\ has_member n g = true.
Proof.
  intros gs n. unfold memberships. rewrite in_flat_map. split; intros (g & I & H); exists g; (split; [exact I|]).
  - apply has_member_iff. apply in_map_iff in H. destruct H as (k & E & K). eauto.
  - apply has_member_iff in H. destruct H as (k & K & E). subst n. apply in_map. exact K.
Qed.
Lemma belongs_some : forall gs n, In n (memberships gs) <-> 1 <= belongs gs n.
Proof.
  intros gs n. rewrite memberships_iff. unfold belongs. split.
  - intros (g & I & H). assert (K : In g (filter (has_member n) gs)) by (apply filter_In; auto). destruct (filter (has_member n) gs); [destruct K|rewrite len_cons; lia].
  - intro H. destruct (filter (has_member n) gs) as [|g l] eqn:E; [cbn in H; lia|]. exists g. apply filter_In. rewrite E. left. reflexivity.
Qed.
Lemma member_names_of : forall ns g, NoDup ns -> NoDup (map qName (gMembers g)) -> (forall n, has_member n g = true -> In n ns) ->
  sum (map (fun n => if has_member n g then 1 else 0) ns) = len (gMembers g).
Proof.
  intros ns g D1 D2 H. transitivity (len (filter (fun n => has_member n g) ns)).
  - clear. induction ns as [|n ns IH]; [reflexivity|]. cbn [map filter]. rewrite sum_cons, IH. destruct (has_member n g); [rewrite len_cons|]; lia.
  - unfold len. f_equal. rewrite <- (map_length qName (gMembers g)). apply Permutation_length. apply NoDup_Permutation; [apply NoDup_filter; exact D1|exact D2|].
    intro n. rewrite filter_In, in_map_iff. split.
    + intros [_ X]. apply has_member_iff in X. destruct X as (k & K & E). eauto.
    + intros (k & E & K). assert (X : has_member n g = true) by (apply has_member_iff; eauto). auto.
Qed.
Lemma sum_belongs : forall gs ns, NoDup ns -> Forall (fun g => NoDup (map qName (gMembers g))) gs -> (forall n, In n (memberships gs) -> In n ns) ->
  sum (map (belongs gs) ns) = len (memberships gs).
Proof.
  intros gs ns D. induction gs as [|g gs IH]; intros F H.
  - unfold belongs. cbn [filter memberships flat_map]. clear. induction ns; [reflexivity|]. cbn [map]. rewrite sum_cons, IHns. reflexivity.
  - inversion F as [|x y F1 F2]; subst. cbn [memberships flat_map] in *. fold (memberships gs) in *. rewrite len_app.
    rewrite <- IH by (try exact F2; intros n I; apply H; apply in_or_app; auto).
    replace (len (map qName (gMembers g))) with (len (gMembers g)) by (unfold len; rewrite map_length; reflexivity).
    rewrite <- (member_names_of ns g D F1).
    + clear. induction ns as [|n ns IH]; [reflexivity|]. cbn [map]. rewrite !sum_cons, IH.
      assert (B : belongs (g :: gs) n = (if has_member n g then 1 else 0) + belongs gs n); [|lia].
      unfold belongs. cbn [filter]. destruct (has_member n g); [rewrite len_cons|]; lia.
    + intros n X. apply H. apply in_or_app. left. apply has_member_iff in X. destruct X as (k & K & E). subst n. apply in_map. exact K.
Qed.
Lemma some_several : forall gs ns, (forall n, In n ns -> 1 <= belongs gs n) ->
  (len ns <? sum (map (belongs gs) ns)) = existsb (fun n => 1 <? belongs gs n) ns.
Proof.
  intros gs ns P. assert (G : len ns <= sum (map (belongs gs) ns)).
  { clear -P. induction ns as [|n ns IH]; [reflexivity|]. cbn [map]. rewrite len_cons, sum_cons. pose proof (P n (or_introl eq_refl)).
    assert (len ns <= sum (map (belongs gs) ns)) by (apply IH; intros x I; apply P; right; exact I). lia. }
  revert G. induction ns as [|n ns IH]; intro G; [reflexivity|]. cbn [map existsb] in *. rewrite len_cons, sum_cons in *.
  assert (P' : forall x, In x ns -> 1 <= belongs gs x) by (intros x I; apply P; right; exact I).
  assert (G' : len ns <= sum (map (belongs gs) ns)).
  { clear -P'. induction ns as [|n ns IH]; [reflexivity|]. cbn [map]. rewrite len_cons, sum_cons. pose proof (P' n (or_introl eq_refl)).
    assert (len ns <= sum (map (belongs gs) ns)) by (apply IH; intros x I; apply P'; right; exact I). lia. }
  rewrite <- IH by assumption. pose proof (P n (or_introl eq_refl)).
  destruct (N.ltb_spec 1 (belongs gs n)); destruct (N.ltb_spec (len ns) (sum (map (belongs gs) ns))); cbn [orb]; lia.
Qed.

(** * Types *)

Definition missing_tail (l : list bytes) (first : bool) : bytes := if first then separated (b_ " ") l else flat_map (fun n => b_ " " ++ n) l.
Lemma separated_spaced : forall n l, separated (b_ " ") (n :: l) = n ++ flat_map (fun n => b_ " " ++ n) l.
Proof.
  intros n l. revert n. induction l as [|m l IH]; intro n; [cbn; rewrite app_nil_r; reflexivity|].
  change (separated (b_ " ") (n :: m :: l)) with (n ++ b_ " " ++ separated (b_ " ") (m :: l)). rewrite IH. cbn [flat_map]. rewrite <- app_assoc. reflexivity.
Qed.
Lemma missing_loop : forall found all missing c, missing = c + len (filter (fun k => negb (existsb (beq (kName k)) found)) all) -> c < 12 ->
  missingLoop all found missing c
  = let l := map kName (firstn (12 - N.to_nat c) (filter (fun k => negb (existsb (beq (kName k)) found)) all)) in
    if c =? 0 then separated (b_ " ") l else flat_map (fun n => b_ " " ++ n) l.
Proof.
  intros found. cbv zeta. induction all as [|k r IH]; intros missing c H L; cbn [missingLoop filter] in *.
  - rewrite firstn_nil. destruct (c =? 0); reflexivity.
  - destruct (existsb (beq (kName k)) found); cbn [negb] in *; [apply IH; assumption|]. rewrite len_cons in H.
    replace (12 - N.to_nat c)%nat with (S (11 - N.to_nat c)) by lia. cbn [firstn map].
    assert (K : (if (c + 1 =? missing) || (c + 1 =? MissingTypeExamples) then [] else missingLoop r found missing (c + 1))
      = flat_map (fun n => b_ " " ++ n) (map kName (firstn (11 - N.to_nat c) (filter (fun k => negb (existsb (beq (kName k)) found)) r)))).
    { unfold MissingTypeExamples. destruct (N.eqb_spec (c + 1) missing) as [E|E]; cbn [orb].
      - assert (Z : len (filter (fun k => negb (existsb (beq (kName k)) found)) r) = 0) by lia. apply len_nil in Z. rewrite Z, firstn_nil. reflexivity.
      - destruct (N.eqb_spec (c + 1) 12) as [F|F]; [replace (11 - N.to_nat c)%nat with 0%nat by lia; reflexivity|].
        rewrite IH by lia. replace (c + 1 =? 0) with false by lia. replace (12 - N.to_nat (c + 1))%nat with (11 - N.to_nat c)%nat by lia. reflexivity. }
    rewrite K. destruct (N.eqb_spec c 0); cbn [negb]; [rewrite separated_spaced; reflexivity|]. cbn [flat_map]. rewrite <- app_assoc. reflexivity.
Qed.

Section Types.
  Variables (d : Data) (gs : list Group) (ks : list QKanji) (types : TypeMap).
  Hypothesis unique_in_data : no_same_name d.
  Hypothesis known : forall k, In k ks -> In (kType (qKanji k)) real_types /\ In (qName k) (map kName (type_list d (kType (qKanji k)))).
  Hypothesis distinct : NoDup (map qName ks).
  Hypothesis same : forall n, In n (map qName ks) <-> In n (memberships gs).
  Hypothesis held : holds_types types ks.
  Lemma one_type : forall s t n, In s real_types -> In t real_types -> In n (map kName (type_list d s)) -> In n (map kName (type_list d t)) -> s = t.
  Proof.
    intros s t n S T A B. unfold no_same_name, all_kanji in unique_in_data.
    assert (G : forall l, NoDup (map kName (flat_map (type_list d) l)) -> In s l -> In t l -> s = t).
    { induction l as [|x l IH]; intros D I J; [destruct I|]. cbn [flat_map] in D. rewrite map_app in D.
      assert (Q : forall y, In y l -> In n (map kName (type_list d y)) -> In n (map kName (flat_map (type_list d) l))).
      { intros y Y Z. apply in_map_iff in Z. destruct Z as (k & E & K). apply in_map_iff. exists k. split; [exact E|]. apply in_flat_map. eauto. }
      assert (R : In n (map kName (type_list d x)) -> In n (map kName (flat_map (type_list d) l)) -> False).
      { intros Y Z. apply in_split in Y. destruct Y as (a & b & Y). rewrite Y, <- app_assoc in D. apply NoDup_remove_2 in D. apply D.
        apply in_or_app. right. apply in_or_app. right. exact Z. }
      destruct I as [I|I]; destruct J as [J|J]; subst; try reflexivity.
      - exfalso. apply R; [exact A|]. apply (Q t); assumption.
      - exfalso. apply R; [exact B|]. apply (Q s); assumption.
      - apply IH; [|assumption|assumption]. clear -D. induction (map kName (type_list d x)) as [|y m IHm]; [exact D|]. cbn [app] in D. inversion D. auto. }
    exact (G real_types unique_in_data S T).
  Qed.
  Lemma type_nodup : forall t, In t real_types -> NoDup (map kName (type_list d t)).
  Proof.
    intros t T. unfold no_same_name, all_kanji in unique_in_data. revert T unique_in_data. generalize real_types. induction l as [|x l IH]; intros I D; [destruct I|].
    cbn [flat_map] in D. rewrite map_app in D. destruct I as [->|I].
    - clear -D. induction (map kName (type_list d t)) as [|y m IHm]; [constructor|]. cbn [app] in D. inversion D as [|u v A B]; subst. constructor; [|apply IHm; exact B].
      intro X. apply A. apply in_or_app. left. exact X.
    - apply IH; [exact I|]. clear -D. induction (map kName (type_list d x)) as [|y m IHm]; [exact D|]. cbn [app] in D. inversion D. auto.
  Qed.
  Lemma type_number : forall t k, In t real_types -> In (kType (qKanji k)) real_types -> typeOf k = kanjiTypeNumber t -> kType (qKanji k) = t.
  Proof. intros t k T K. unfold typeOf. generalize dependent (kType (qKanji k)). intros s S E. destruct s; destruct t; try reflexivity; discriminate. Qed.
  Lemma in_group_iff : forall k, in_group gs k = true <-> In (kName k) (memberships gs).
  Proof. intro k. unfold in_group. rewrite existsb_exists, memberships_iff. reflexivity. Qed.
  Lemma found_names : forall t, In t real_types ->
    Permutation (map qName (of_type (kanjiTypeNumber t) ks)) (map kName (filter (in_group gs) (type_list d t))).
  Proof.
    intros t T. apply NoDup_Permutation.
    - clear -distinct. unfold of_type. induction ks as [|k r IH]; [constructor|]. cbn [filter map] in *. inversion distinct as [|x y A B]; subst.
      destruct (typeOf k =? kanjiTypeNumber t); [|apply IH; exact B]. cbn [map]. constructor; [|apply IH; exact B]. intro X. apply A.
      apply in_map_iff in X. destruct X as (z & E & Z). apply filter_In in Z. rewrite <- E. apply in_map. apply Z.
    - pose proof (type_nodup t T) as D. clear -D. induction (type_list d t) as [|k r IH]; [constructor|]. cbn [filter map] in *. inversion D as [|x y A B]; subst.
      destruct (in_group gs k); [|apply IH; exact B]. cbn [map]. constructor; [|apply IH; exact B]. intro X. apply A.
      apply in_map_iff in X. destruct X as (z & E & Z). apply filter_In in Z. rewrite <- E. apply in_map. apply Z.
    - intro n. split; intro H.
      + apply in_map_iff in H. destruct H as (k & <- & K). unfold of_type in K. apply filter_In in K. destruct K as [K E]. apply N.eqb_eq in E.
        destruct (known k K) as [R L]. rewrite (type_number t k T R E) in L. apply in_map_iff in L. destruct L as (x & E' & X). apply in_map_iff. exists x.
        split; [exact E'|]. apply filter_In. split; [exact X|]. apply in_group_iff. apply same. rewrite E'. apply in_map. exact K.
      + apply in_map_iff in H. destruct H as (x & <- & X). apply filter_In in X. destruct X as [X G]. apply in_group_iff, same in G. apply in_map_iff in G.
        destruct G as (k & E & K). rewrite <- E. apply in_map. unfold of_type. apply filter_In. split; [exact K|]. apply N.eqb_eq.
        destruct (known k K) as [R L]. unfold typeOf. f_equal. apply (one_type _ _ (qName k) R T L). rewrite E. apply in_map. exact X.
  Qed.
  Lemma type_line : forall fill t, In t real_types ->
    match findType (kanjiTypeNumber t) types with
    | Some l => putSetw false fill BreakdownSetW (typeToString t) ++ b_ ": " ++ to_string (len l) ++ b_ " / "
                  ++ to_string (len (typeList d t)) ++ printMissingFromType (typeList d t) l ++ [10]
    | None => []
    end = breakdown_line fill d gs t.
  Proof.
    intros fill t T. pose proof (found_names t T) as P. rewrite (held (kanjiTypeNumber t)). unfold breakdown_line.
    destruct (of_type (kanjiTypeNumber t) ks) as [|k r].
    - cbn [map] in P. apply Permutation_nil in P. destruct (filter (in_group gs) (type_list d t)); [reflexivity|discriminate].
    - set (l := map qName (k :: r)) in *.
      assert (L : len l = len (filter (in_group gs) (type_list d t))) by (unfold len; rewrite (Permutation_length P), map_length; reflexivity).
      assert (M : forall x, In x (type_list d t) -> existsb (beq (kName x)) l = in_group gs x).
      { intros x X. destruct (in_group gs x) eqn:G.
        - apply seen_iff. eapply Permutation_in; [apply Permutation_sym; exact P|]. apply in_map. apply filter_In. auto.
        - apply seen_not. intro Y. apply (Permutation_in _ P) in Y. apply in_map_iff in Y. destruct Y as (z & E & Z). apply filter_In in Z.
          destruct Z as [_ Z]. apply in_group_iff in Z. rewrite E in Z. apply in_group_iff in Z. congruence. }
      destruct (filter (in_group gs) (type_list d t)) as [|k0 r0] eqn:F; [exfalso; cbn [map] in P; apply Permutation_sym, Permutation_nil in P; discriminate|].
      rewrite L, typeList_real by exact T. unfold putSetw. change (Z.to_nat BreakdownSetW) with 14%nat. rewrite <- !app_assoc. repeat f_equal.
      unfold printMissingFromType. rewrite L, <- F.
      assert (Q : len (filter (in_group gs) (type_list d t)) + len (filter (fun k => negb (in_group gs k)) (type_list d t)) = len (type_list d t)).
      { clear. induction (type_list d t) as [|x m IH]; [reflexivity|]. cbn [filter]. rewrite len_cons. destruct (in_group gs x); cbn [negb]; rewrite len_cons; lia. }
      rewrite sub64_le by lia.
      assert (E : filter (fun k => negb (existsb (beq (kName k)) l)) (type_list d t) = filter (fun k => negb (in_group gs k)) (type_list d t)).
      { apply filter_ext_in. intros x X. rewrite M by exact X. reflexivity. }
      rewrite missing_loop by (rewrite ?E; lia). rewrite E. cbv zeta. change (12 - N.to_nat 0)%nat with 12%nat. change (0 =? 0) with true. cbv iota.
      replace (len (type_list d t) - len (filter (in_group gs) (type_list d t))) with (len (filter (fun k => negb (in_group gs k)) (type_list d t))) by lia.
      destruct (filter (fun k => negb (in_group gs k)) (type_list d t)) as [|a m]; [reflexivity|].
      replace (len (a :: m) =? 0) with false by (rewrite len_cons; lia). cbn [negb]. reflexivity.
  Qed.
  Lemma type_breakdown : forall f, printTypeBreakdown f d types = breakdown (sFill f) d gs.
  Proof.
    intro f. unfold printTypeBreakdown, breakdown.
    change (to_string MissingTypeExamples) with (b_ "12").
    change (b_ "Type Breakdown (showing up to 12 missing examples per type)") with (b_ "Type Breakdown (showing up to " ++ b_ "12" ++ b_ " missing examples per type)").
    rewrite <- !app_assoc. do 4 (apply f_equal). change AllKanjiTypes with (real_types ++ [NoType]). rewrite flat_map_app.
    assert (Z : findType (kanjiTypeNumber NoType) types = None).
    { rewrite (held (kanjiTypeNumber NoType)). assert (E : of_type (kanjiTypeNumber NoType) ks = []); [|rewrite E; reflexivity].
      unfold of_type. assert (G : forall k, In k ks -> (typeOf k =? kanjiTypeNumber NoType) = false).
      { intros k K. destruct (known k K) as [R _]. unfold typeOf. destruct (kType (qKanji k)); try reflexivity. exfalso. cbn in R. intuition discriminate. }
      clear -G. induction ks as [|k r IH]; [reflexivity|]. cbn [filter]. rewrite G by (left; reflexivity). apply IH. intros x X. apply G. right. exact X. }
    cbn [flat_map]. rewrite Z, !app_nil_r. 
    assert (G : forall l, (forall t, In t l -> In t real_types) ->
      flat_map (fun t => match findType (kanjiTypeNumber t) types with
                         | Some l => putSetw false (sFill f) BreakdownSetW (typeToString t) ++ b_ ": " ++ to_string (len l) ++ b_ " / "
                                       ++ to_string (len (typeList d t)) ++ printMissingFromType (typeList d t) l ++ [10]
                         | None => [] end) l = flat_map (breakdown_line (sFill f) d gs) l).
    { induction l as [|t l IH]; intro I; [reflexivity|]. cbn [flat_map]. rewrite type_line by (apply I; left; reflexivity).
      rewrite IH by (intros x X; apply I; right; exact X). reflexivity. }
    apply G. auto.
  Qed.
  Lemma after_breakdown : forall f, afterBreakdown f types = MkStream (match ks with [] => sLeft f | _ => false end) (sFill f).
  Proof.
    intro f. unfold afterBreakdown. destruct ks as [|k r] eqn:E.
    - replace (existsb _ AllKanjiTypes) with false; [destruct f; reflexivity|]. symmetry.
      assert (G : forall l, existsb (fun t => match findType (kanjiTypeNumber t) types with Some _ => true | None => false end) l = false).
      { induction l as [|t l IH]; [reflexivity|]. cbn [existsb]. rewrite (held (kanjiTypeNumber t)). exact IH. }
      apply G.
    - replace (existsb _ AllKanjiTypes) with true; [reflexivity|]. symmetry. apply existsb_exists. exists (kType (qKanji k)).
      destruct (known k (or_introl eq_refl)) as [R _]. split; [change AllKanjiTypes with (real_types ++ [NoType]); apply in_or_app; left; exact R|].
      rewrite (held (kanjiTypeNumber (kType (qKanji k)))). unfold of_type. cbn [filter]. unfold typeOf at 1. rewrite N.eqb_refl. reflexivity.
  Qed.
End Types.
