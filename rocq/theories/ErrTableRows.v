(** Facts about the messages about rows and values of tables. *)
From Verif Require Import BaseFacts ErrTableModel ErrTableSpec ErrTableProofs ColumnFileProofs ColumnFileLemmas ListProofs.
Open Scope N_scope.
Arguments N.mul : simpl never. Arguments N.add : simpl never. Arguments N.sub : simpl never.

Lemma strip_len : forall fs, fs <> [] ->
  (List.length (strip_trailing_empty fs) = List.length fs /\ last fs [0] <> [])
  \/ (S (List.length (strip_trailing_empty fs)) = List.length fs /\ last fs [0] = []).
Proof.
  intros fs H. destruct (exists_last H) as [init [x ->]]. rewrite strip_trailing_empty_snoc, last_last, app_length. cbn [List.length].
  destruct x as [|c x]; [right; split; [lia|reflexivity]|left]. rewrite app_length. cbn [List.length]. split; [lia|discriminate].
Qed.
Lemma fields_same : forall d line fs gs, has_fields d line fs -> has_fields d line gs -> strip_trailing_empty fs = strip_trailing_empty gs.
Proof.
  intros d line fs gs H1 H2. assert (E : strip_trailing_empty fs = getlines d line) by (apply cut_getlines; exists fs; split; [exact H1|reflexivity]).
  rewrite E. symmetry. apply cut_getlines. exists gs. split; [exact H2|reflexivity].
Qed.

Section Row.
Variables (name : bytes) (f : ColumnFile) (line : bytes) (rest : list bytes).
Hypothesis Hfile : file f = line :: rest.
Hypothesis Hn : (1 <= List.length (rowValues f))%nat.
Notation n := (List.length (rowValues f)).

Lemma row_message : forall e w fs, has_fields (delimiter f) line fs -> nextRowE name f = Says e w ->
  e = DomainError
  /\ w = (if (n <? List.length (strip_trailing_empty fs))%nat then b_ "too many columns" else b_ "not enough columns") ++ in_row name (currentRow f + 1).
Proof.
  intros e w fs Hf H. unfold nextRowE in H. rewrite Hfile in H.
  assert (E : getlines (delimiter f) line = strip_trailing_empty fs) by (symmetry; apply cut_getlines; exists fs; split; [exact Hf|reflexivity]).
  rewrite E in H. change (rowValues f) with ([] ++ rowValues f) in H at 1. change 0%nat with (List.length (@nil bytes)) in H at 1.
  rewrite storeFields_spec in H. cbv zeta in H.
  assert (M : forall r, errorMsg name (currentRow f + 1) r = r ++ in_row name (currentRow f + 1)).
  { intro r. unfold errorMsg, in_row, in_file. replace (currentRow f + 1 =? 0) with false by (symmetry; apply N.eqb_neq; lia). rewrite <- !app_assoc. reflexivity. }
  destruct (List.length (strip_trailing_empty fs) <=? n)%nat eqn:El.
  - apply Nat.leb_le in El. replace (n <? List.length (strip_trailing_empty fs))%nat with false by (symmetry; apply Nat.ltb_ge; lia).
    match type of H with (if ?b then _ else _) = _ => destruct b; [discriminate H|] end.
    match type of H with (if ?b then _ else _) = _ => destruct b; [|discriminate H] end.
    unfold tableError in H. rewrite M in H. apply says_inj in H. destruct H as [<- <-]. split; reflexivity.
  - apply Nat.leb_gt in El. replace (n <? List.length (strip_trailing_empty fs))%nat with true by (symmetry; apply Nat.ltb_lt; lia).
    unfold tableError in H. rewrite M in H. apply says_inj in H. destruct H as [<- <-]. split; reflexivity.
Qed.
Lemma row_fits_got : row_fits (delimiter f) n line -> exists g vals, nextRowE name f = Got (true, g) /\ g = with_row f rest vals /\ List.length vals = n.
Proof.
  intros [fs [Hf Hl]]. pose proof (nextRow_fields f line rest fs Hfile Hn Hf) as E. rewrite <- (next_plain name) in E.
  destruct (strip_len fs (proj1 Hf)) as [[Ha Hb]|[Ha Hb]].
  - assert (Hl' : List.length fs = n) by (destruct Hl; lia). rewrite (proj2 (Nat.eqb_eq _ _) Hl') in E.
    destruct (nextRowE name f) as [x|e w| |]; cbn [plain] in E; try discriminate E. injection E as ->. exists (with_row f rest fs), fs. auto.
  - destruct (List.length fs =? n)%nat eqn:E1.
    + apply Nat.eqb_eq in E1. destruct (nextRowE name f) as [x|e w| |]; cbn [plain] in E; try discriminate E. injection E as ->.
      exists (with_row f rest fs), fs. auto.
    + apply Nat.eqb_neq in E1. assert (Hl' : List.length fs = S n) by (destruct Hl; lia). rewrite (proj2 (Nat.eqb_eq _ _) Hl'), Hb in E. cbn [andb] in E.
      destruct (nextRowE name f) as [x|e w| |]; cbn [plain] in E; try discriminate E. injection E as ->.
      exists (with_row f rest (removelast fs)), (removelast fs). split; [reflexivity|]. split; [reflexivity|].
      rewrite removelast_firstn_len, firstn_length, Hl'. cbn. lia.
Qed.
Lemma row_wrong_says : forall r, row_wrong (delimiter f) n line r -> nextRowE name f = Says DomainError (r ++ in_row name (currentRow f + 1)).
Proof.
  intros r H.
  assert (G : exists fs, has_fields (delimiter f) line fs /\ (List.length fs <> n) /\ List.length (strip_trailing_empty fs) <> n
     /\ r = if (n <? List.length (strip_trailing_empty fs))%nat then b_ "too many columns" else b_ "not enough columns").
  { destruct H as [fs Hf Hl|fs Hf Hl]; exists fs; (split; [exact Hf|]); destruct (strip_len fs (proj1 Hf)) as [[Ha Hb]|[Ha Hb]];
      (split; [lia|]); (split; [lia|]).
    - rewrite (proj2 (Nat.ltb_lt _ _) Hl). reflexivity.
    - rewrite (proj2 (Nat.ltb_lt _ _) Hl). reflexivity.
    - rewrite (proj2 (Nat.ltb_ge _ _)) by lia. reflexivity.
    - rewrite (proj2 (Nat.ltb_ge _ _)) by lia. reflexivity. }
  destruct G as [fs [Hf [H1 [H2 ->]]]]. pose proof (nextRow_fields f line rest fs Hfile Hn Hf) as E. rewrite <- (next_plain name) in E.
  rewrite (proj2 (Nat.eqb_neq _ _) H1) in E.
  assert (E2 : (List.length fs =? S n)%nat && match last fs [0] with [] => true | _ => false end = false).
  { destruct (List.length fs =? S n)%nat eqn:X; [|reflexivity]. apply Nat.eqb_eq in X. destruct (strip_len fs (proj1 Hf)) as [[Ha Hb]|[Ha Hb]]; [|lia].
    cbn [andb]. destruct (last fs [0]); [congruence|reflexivity]. }
  rewrite E2 in E. destruct (nextRowE name f) as [x|e w| |] eqn:En; cbn [plain] in E; try discriminate E.
  destruct (row_message e w fs Hf En) as [-> ->]. reflexivity.
Qed.
Lemma row_says_wrong : forall e w, nextRowE name f = Says e w ->
  e = DomainError /\ exists r, row_wrong (delimiter f) n line r /\ w = r ++ in_row name (currentRow f + 1).
Proof.
  intros e w H. destruct (fields_exist (delimiter f) line) as [fs Hf]. destruct (row_message e w fs Hf H) as [-> ->]. split; [reflexivity|].
  eexists. split; [|reflexivity]. destruct (n <? List.length (strip_trailing_empty fs))%nat eqn:El.
  - apply Nat.ltb_lt in El. exact (rw_many _ _ _ fs Hf El).
  - apply Nat.ltb_ge in El. assert (Hs : List.length (strip_trailing_empty fs) <> n /\ List.length fs <> n).
    { split; intro X; (destruct row_fits_got as [g [vals [G _]]]; [exists fs; split; [exact Hf|tauto]|congruence]). }
    apply (rw_few _ _ _ fs Hf). destruct (strip_len fs (proj1 Hf)) as [[Ha Hb]|[Ha Hb]]; lia.
Qed.
Lemma row_fits_or_not : row_fits (delimiter f) n line \/ exists r, row_wrong (delimiter f) n line r.
Proof.
  destruct (fields_exist (delimiter f) line) as [fs Hf]. destruct (Nat.eq_dec (List.length fs) n) as [E|E]; [left; exists fs; tauto|].
  destruct (Nat.eq_dec (List.length (strip_trailing_empty fs)) n) as [E1|E1]; [left; exists fs; tauto|]. right.
  destruct (Nat.lt_ge_cases n (List.length (strip_trailing_empty fs))) as [L|L]; eexists.
  - exact (rw_many _ _ _ fs Hf L).
  - apply (rw_few _ _ _ fs Hf). destruct (strip_len fs (proj1 Hf)) as [[Ha Hb]|[Ha Hb]]; lia.
Qed.
Lemma wrong_not_fits : forall r, row_wrong (delimiter f) n line r -> ~ row_fits (delimiter f) n line.
Proof. intros r H G. apply row_wrong_says in H. apply row_fits_got in G. destruct G as [g [v [G _]]]. congruence. Qed.
End Row.

(** the first wrong row *)
Lemma rows_says : forall name rows m f e w, file f = rows -> (1 <= List.length (rowValues f))%nat ->
  (readRowsE name m f = Says e w <->
   e = DomainError /\ exists k line r, (k < m)%nat /\ nth_error rows k = Some line
     /\ (forall j l, (j < k)%nat -> nth_error rows j = Some l -> row_fits (delimiter f) (List.length (rowValues f)) l)
     /\ row_wrong (delimiter f) (List.length (rowValues f)) line r /\ w = r ++ in_row name (currentRow f + N.of_nat (S k))).
Proof.
  intros name rows. induction rows as [|line rows IH]; intros m f e w Hf Hn.
  - split.
    + intro H. exfalso. assert (X : readRowsE name m f = Got f); [|congruence]. clear H. induction m as [|m IHm]; [reflexivity|].
      cbn [readRowsE]. unfold nextRowE. rewrite Hf. exact IHm.
    + intros [_ [k [line [r [_ [H _]]]]]]. destruct k; discriminate H.
  - destruct m as [|m].
    { split; [discriminate|]. intros [_ [k [l [r [H _]]]]]. lia. }
    cbn [readRowsE]. destruct (row_fits_or_not f line Hn) as [Hfit|[r0 Hw]].
    + destruct (row_fits_got name f line rows Hf Hn Hfit) as [g [vals [-> [Hg Hv]]]]. cbn [rbind].
      assert (Hg1 : file g = rows) by (subst g; reflexivity). assert (Hg2 : List.length (rowValues g) = List.length (rowValues f)) by (subst g; exact Hv).
      assert (Hg3 : delimiter g = delimiter f) by (subst g; reflexivity). assert (Hg4 : currentRow g = currentRow f + 1) by (subst g; reflexivity).
      clear Hg. rewrite (IH m g e w Hg1) by lia. rewrite Hg2, Hg3, Hg4. split.
      * intros [He [k [l [r [H1 [H2 [H3 [H4 ->]]]]]]]]. split; [exact He|]. exists (S k), l, r. split; [lia|]. split; [exact H2|]. split.
        { intros [|j] l' Hj Hl'; [cbn in Hl'; replace l' with line by congruence; exact Hfit|]. apply (H3 j); [lia|exact Hl']. }
        split; [exact H4|]. do 2 f_equal. lia.
      * intros [He [k [l [r [H1 [H2 [H3 [H4 ->]]]]]]]]. split; [exact He|]. destruct k as [|k].
        { exfalso. injection H2 as ->. exact (wrong_not_fits name f l rows Hf Hn r H4 Hfit). }
        exists k, l, r. split; [lia|]. split; [exact H2|]. split.
        { intros j l' Hj Hl'. apply (H3 (S j)); [lia|exact Hl']. }
        split; [exact H4|]. do 2 f_equal. lia.
    + rewrite (row_wrong_says name f line rows Hf Hn r0 Hw). cbn [rbind]. split.
      * intro H. apply says_inj in H. destruct H as [<- <-]. split; [reflexivity|]. exists 0%nat, line, r0. split; [lia|]. split; [reflexivity|].
        split; [intros j l Hj; lia|]. split; [exact Hw|]. reflexivity.
      * intros [-> [k [l [r [H1 [H2 [H3 [H4 ->]]]]]]]]. destruct k as [|k].
        { injection H2 as <-. f_equal. change (N.of_nat 1) with 1.
          pose proof (row_wrong_says name f line rows Hf Hn r H4) as X. rewrite (row_wrong_says name f line rows Hf Hn r0 Hw) in X.
          apply says_inj in X. tauto. }
        exfalso. apply (wrong_not_fits name f line rows Hf Hn r0 Hw). apply (H3 0%nat); [lia|reflexivity].
Qed.

Lemma open_state : forall reg name s cols delim f, openFileE reg name (Contents s) cols delim = Got f ->
  exists line, cut 10 s (line :: file f) /\ delimiter f = delim /\ currentRow f = 0 /\ List.length (rowValues f) = List.length cols /\ cols <> [].
Proof.
  intros reg name s cols delim f H. assert (Hc : cols <> []) by (intros ->; discriminate H). unfold openFileE in H.
  destruct cols as [|c cs] eqn:E; [destruct (Hc eq_refl)|]. rewrite <- E in *.
  destruct (getlines 10 s) as [|line rows] eqn:Eg; [discriminate H|].
  destruct (emplaceColumnsE _ _ _); cbn [rbind] in H; try discriminate H.
  destruct (processHeaderE _ _ _ _ _ _) as [[m ctp]|e w| |]; cbn [rbind] in H; try discriminate H.
  destruct (verifyHeaderColumns _ _); cbn [rbind] in H; try discriminate H. injection H as <-. exists line. cbn [file delimiter currentRow rowValues].
  split; [apply cut_getlines; symmetry; exact Eg|]. split; [reflexivity|]. split; [reflexivity|]. split; [apply repeat_length|exact Hc].
Qed.

(** ** Values *)

Section Value.
Variables (name : bytes) (f : ColumnFile) (c : Column) (s : bytes).
Hypothesis Hget : getFieldE name f c = Got s.
Notation told r := (r ++ in_row name (currentRow f) ++ in_column (cname c) s).
Lemma current_row : currentRow f <> 0.
Proof. intro X. unfold getFieldE in Hget. rewrite X in Hget. discriminate Hget. Qed.
Lemma value_message : forall A r, @valueError A name (currentRow f) r c s = Says DomainError (told r).
Proof.
  intros A r. unfold valueError, errorMsg, in_row, in_file, in_column, quoted.
  replace (currentRow f =? 0) with false by (symmetry; apply N.eqb_neq; exact current_row). rewrite <- !app_assoc. reflexivity.
Qed.
Lemma u64_says : forall max e w, getU64E name f c max = Says e w <-> e = DomainError /\ exists r, number_wrong max s r /\ w = told r.
Proof.
  intros max e w. unfold getU64E. rewrite Hget. cbn [rbind]. unfold processU64E.
  destruct (stoul_cases s) as [[v Ev]|[x Ex]].
  - rewrite Ev. assert (L : loose_number s v) by (apply stoul_iff; exact Ev).
    assert (U : forall v', loose_number s v' -> v' = v) by (intros v' H; apply stoul_iff in H; congruence).
    destruct (negb (max =? 0) && (max <? v)) eqn:E.
    + rewrite value_message. apply andb_true_iff in E. destruct E as [E1 E2]. apply negb_true_iff, N.eqb_neq in E1. apply N.ltb_lt in E2. split.
      * intro H. apply says_inj in H. destruct H as [<- <-]. split; [reflexivity|]. eexists. split; [exact (nw_large max s v L E1 E2)|reflexivity].
      * intros [-> [r [[Hno|v' H1 H2 H3] ->]]]; [destruct (Hno v L)|reflexivity].
    + split; [discriminate|]. intros [_ [r [[Hno|v' H1 H2 H3] _]]]; [destruct (Hno v L)|]. rewrite (U v' H1) in H3.
      apply andb_false_iff in E. destruct E as [E|E]; [apply negb_false_iff, N.eqb_eq in E; congruence|apply N.ltb_ge in E; lia].
  - rewrite Ex, value_message. assert (No : forall v, ~ loose_number s v) by (intros v H; apply stoul_iff in H; congruence). split.
    + intro H. apply says_inj in H. destruct H as [<- <-]. split; [reflexivity|]. eexists. split; [exact (nw_not max s No)|reflexivity].
    + intros [-> [r [[Hno|v' H1 H2 H3] ->]]]; [reflexivity|destruct (No v' H1)].
Qed.
Lemma optU64_says : forall max e w, getOptU64E name f c max = Says e w <-> s <> [] /\ e = DomainError /\ exists r, number_wrong max s r /\ w = told r.
Proof.
  intros max e w. rewrite <- (u64_says max e w). unfold getOptU64E, getU64E. rewrite Hget. cbn [rbind].
  destruct s as [|b s']; [split; [discriminate|intros [H _]; congruence]|].
  destruct (processU64E name (currentRow f) (b :: s') c max) as [v|e' w'| |]; cbn [rbind]; split; try discriminate.
  - intros [_ H]. discriminate H.
  - intro H. split; [discriminate|apply says_inj in H; destruct H as [<- <-]; reflexivity].
  - intros [_ H]. apply says_inj in H; destruct H as [<- <-]; reflexivity.
  - intros [_ H]. discriminate H.
  - intros [_ H]. discriminate H.
Qed.
Lemma bool_says : forall e w, getBoolE name f c = Says e w <-> e = DomainError /\ exists r, bool_wrong s r /\ w = told r.
Proof.
  intros e w. unfold getBoolE. rewrite Hget. cbn [rbind]. cbv zeta.
  assert (W : s <> [] -> ~ In s [b_ "Y"; b_ "T"; b_ "N"; b_ "F"] ->
    (@valueError bool name (currentRow f) (b_ "failed to convert to bool") c s = Says e w <-> e = DomainError /\ exists r, bool_wrong s r /\ w = told r)).
  { intros H1 H2. rewrite value_message. split.
    - intro H. apply says_inj in H. destruct H as [<- <-]. split; [reflexivity|]. eexists. split; [exact (bw_not s H1 H2)|reflexivity].
    - intros [-> [r [[] ->]]]. reflexivity. }
  assert (G : forall b : bool, In s [b_ "Y"; b_ "T"; b_ "N"; b_ "F"] -> (Got b = Says e w <-> e = DomainError /\ exists r, bool_wrong s r /\ w = told r)).
  { intros b H1. split; [discriminate|]. intros [_ [r [[_ H2] _]]]. contradiction. }
  destruct s as [|b [|d s']].
  - split; [discriminate|]. intros [_ [r [[H2 _] _]]]. congruence.
  - destruct ((b =? 89) || (b =? 84)) eqn:E1; [|destruct ((b =? 78) || (b =? 70)) eqn:E2].
    + apply G. apply orb_true_iff in E1. rewrite !N.eqb_eq in E1. destruct E1 as [->| ->]; cbn; auto.
    + apply G. apply orb_true_iff in E2. rewrite !N.eqb_eq in E2. destruct E2 as [->| ->]; cbn; auto.
    + apply W; [discriminate|]. apply orb_false_iff in E1, E2. rewrite !N.eqb_neq in E1, E2. cbn. intros [H|[H|[H|[H|[]]]]]; injection H as <-; lia.
  - apply W; [discriminate|]. cbn. intros [H|[H|[H|[H|[]]]]]; discriminate H.
Qed.
Lemma hex_test : (forall i, is_upper_hex i <-> ((i <? 48) || (70 <? i) || ((i <? 65) && (57 <? i))) = false).
Proof. intro i. unfold is_upper_hex, is_digit. lia. Qed.
Lemma char_says : forall e w, getChar32E name f c = Says e w <-> e = DomainError /\ exists r, code_wrong s r /\ w = told r.
Proof.
  intros e w. unfold getChar32E. rewrite Hget. cbn [rbind]. destruct ((len s <? 4) || (5 <? len s)) eqn:E1.
  - rewrite value_message. assert (Hs : len s <> 4 /\ len s <> 5) by lia. split.
    + intro H. apply says_inj in H. destruct H as [<- <-]. split; [reflexivity|]. eexists. split; [exact (cw_size s (proj1 Hs) (proj2 Hs))|reflexivity].
    + intros [-> [r [[H1 H2|H1 H2] ->]]]; [reflexivity|lia].
  - assert (Hs : len s = 4 \/ len s = 5) by lia. destruct (existsb _ s) eqn:E2.
    + rewrite value_message. assert (Hh : ~ Forall is_upper_hex s).
      { intro X. apply existsb_exists in E2. destruct E2 as [i [Hi E2]]. rewrite Forall_forall in X. apply X in Hi. apply hex_test in Hi. congruence. }
      split.
      * intro H. apply says_inj in H. destruct H as [<- <-]. split; [reflexivity|]. eexists. split; [exact (cw_hex s Hs Hh)|reflexivity].
      * intros [-> [r [[H1 H2|H1 H2] ->]]]; [lia|reflexivity].
    + split; [discriminate|]. intros [_ [r [[H1 H2|H1 H2] _]]]; [lia|]. exfalso. apply H2. apply Forall_forall. intros i Hi. apply hex_test.
      destruct ((i <? 48) || (70 <? i) || ((i <? 65) && (57 <? i))) eqn:X; [|reflexivity]. exfalso.
      assert (Y : existsb (fun i => (i <? 48) || (70 <? i) || ((i <? 65) && (57 <? i))) s = true) by (apply existsb_exists; exists i; split; assumption). congruence.
Qed.
End Value.

(** ** Columns that are not in the header *)

Lemma next_keeps : forall name f b g, nextRowE name f = Got (b, g) -> columnToPosition g = columnToPosition f /\ (currentRow f <> 0 \/ file f <> [] -> currentRow g <> 0).
Proof.
  intros name f b g H. unfold nextRowE in H. destruct (file f) as [|line rest]; [injection H as _ <-; tauto|].
  destruct (storeFields _ _ _) as [[i vals]|]; [|discriminate H]. cbv zeta in H.
  match type of H with (if ?x then _ else _) = _ => destruct x end.
  - injection H as _ <-. cbn. split; [reflexivity|lia].
  - destruct (i <? List.length (rowValues f))%nat; [discriminate H|]. injection H as _ <-. cbn. split; [reflexivity|lia].
Qed.
Lemma rows_keep : forall name k f g, readRowsE name k f = Got g -> columnToPosition g = columnToPosition f /\ (currentRow f <> 0 -> currentRow g <> 0).
Proof.
  intros name k. induction k as [|k IH]; intros f g H; cbn [readRowsE] in H; [injection H as <-; tauto|].
  destruct (nextRowE name f) as [[b g1]|e w| |] eqn:E; cbn [rbind] in H; try discriminate H.
  destruct (next_keeps _ _ _ _ E) as [H1 H2]. destruct (IH _ _ H) as [H3 H4]. rewrite H3, H1. split; [reflexivity|]. tauto.
Qed.
Lemma first_row_read : forall name k f g, file f <> [] -> readRowsE name (S k) f = Got g -> currentRow g <> 0.
Proof.
  intros name k f g Hf H. cbn [readRowsE] in H. destruct (nextRowE name f) as [[b g1]|e w| |] eqn:E; cbn [rbind] in H; try discriminate H.
  destruct (next_keeps _ _ _ _ E) as [_ H1]. destruct (rows_keep _ _ _ _ H) as [_ H2]. auto.
Qed.

Section Get.
Variables (history : list bytes) (created : list Column) (reg : registry) (cols : list Column) (delim : N) (name s : bytes) (f0 : ColumnFile).
Hypothesis Hreg : newColumns [] history = (created, reg).
Hypothesis Hincl : incl cols created.
Hypothesis Hopen : openFileE reg name (Contents s) cols delim = Got f0.

Lemma positions : List.length (columnToPosition f0) = List.length reg
  /\ forall j, (forall c, In c cols -> cnumber c <> j) -> nth_error (columnToPosition f0) j = nth_error (repeat None (List.length reg)) j.
Proof.
  pose proof Hopen as H. assert (Hc : cols <> []) by (intros ->; discriminate H). unfold openFileE in H.
  destruct cols as [|c cs] eqn:E; [destruct (Hc eq_refl)|]. rewrite <- E in *.
  destruct (getlines 10 s) as [|line rows] eqn:Eg; [discriminate H|].
  pose proof (emplace_plain name cols []) as P1.
  destruct (emplaceColumnsE _ _ _) as [cn| | |]; cbn [rbind] in H; try discriminate H.
  destruct (nodup_names_dec (map cname cols)) as [Hnd|Hnd]; [|rewrite emplaceColumns_none in P1; [discriminate P1|constructor|exact Hnd]].
  rewrite emplaceColumns_some in P1 by exact Hnd. cbn [app plain] in P1. injection P1 as ->.
  match type of H with context [processHeaderE ?a ?b ?c ?d ?e ?g] => pose proof (header_plain a b c d e g) as P2; destruct (processHeaderE a b c d e g) as [[m ctp]|e1 w1| |] end;
    cbn [rbind] in H; try discriminate H. cbn [plain] in P2. symmetry in P2.
  destruct (verifyHeaderColumns _ _); cbn [rbind] in H; try discriminate H. injection H as <-. cbn [columnToPosition].
  pose proof (created_ok _ _ _ _ Hreg Hincl Hnd) as Hnum.
  destruct (processHeader_sound _ _ _ _ _ _ _ Hnd Hnum P2) as [_ [Q2 [_ Q4]]].
  split; [rewrite Q2, repeat_length; reflexivity|]. intros j Hj. apply Q4. intros d Hd _. apply Hj. exact Hd.
Qed.
Lemma get_first : forall c, getFieldE name f0 c = Says DomainError (b_ "'nextRow' must be called before calling 'get'" ++ in_file name).
Proof.
  intro c. destruct (open_state _ _ _ _ _ _ Hopen) as [l [_ [_ [H _]]]]. unfold getFieldE. rewrite H. cbn [N.eqb]. unfold tableError, errorMsg, in_file.
  cbn [N.eqb]. rewrite app_nil_r. reflexivity.
Qed.
Lemma get_invalid : forall k f c, file f0 <> [] -> readRowsE name (S k) f0 = Got f -> In c created -> ~ In (cname c) (map cname cols) ->
  getFieldE name f c = Says DomainError (b_ "invalid column " ++ quoted (cname c) ++ in_row name (currentRow f)).
Proof.
  intros k f c Hf Hr Hc Hn. pose proof (first_row_read _ _ _ _ Hf Hr) as H0. destruct (rows_keep _ _ _ _ Hr) as [Hp _].
  destruct positions as [_ P]. unfold getFieldE. rewrite (proj2 (N.eqb_neq _ _) H0), Hp.
  destruct (newColumns_spec _ _ _ _ Hreg) as [_ [Hg [_ Hnd]]]. specialize (Hnd (NoDup_nil _)). rewrite Forall_forall in Hg.
  rewrite P.
  - assert (Hlt : (cnumber c < List.length reg)%nat) by (apply nth_error_Some; specialize (Hg c Hc); unfold registered in Hg; congruence).
    assert (E : nth_error (repeat (@None nat) (List.length reg)) (cnumber c) = Some None).
    { destruct (nth_error _ _) as [o|] eqn:Eo; [|apply nth_error_None in Eo; rewrite repeat_length in Eo; lia].
      apply nth_error_In, repeat_spec in Eo. congruence. }
    rewrite E. unfold tableError, errorMsg, in_row, in_file, quoted. rewrite (proj2 (N.eqb_neq _ _) H0). rewrite <- !app_assoc. reflexivity.
  - intros d Hd Ed. apply Hn. apply (registered_inj reg d c Hnd (Hg d (Hincl d Hd)) (Hg c Hc)) in Ed. rewrite <- Ed. apply in_map. exact Hd.
Qed.
Lemma index_app : forall n l ext, index_of n l = None -> index_of n (l ++ ext) = option_map (fun i => (List.length l + i)%nat) (index_of n ext).
Proof.
  intros n l ext. induction l as [|x l IH]; cbn; [destruct (index_of n ext); reflexivity|]. destruct (beq x n); [discriminate|].
  intro H. rewrite IH by (destruct (index_of n l); [discriminate H|reflexivity]). destruct (index_of n ext); reflexivity.
Qed.
Lemma reg_names : forall names r cs r', newColumns r names = (cs, r') -> forall n, In n r' <-> In n r \/ In n names.
Proof.
  induction names as [|x names IH]; intros r cs r' H n; cbn [newColumns] in H; [injection H as _ <-; cbn; tauto|].
  destruct (newColumn r x) as [c r1] eqn:E1. destruct (newColumns r1 names) as [cs2 r2] eqn:E2. injection H as _ <-.
  rewrite (IH _ _ _ E2). cbn [In]. unfold newColumn, getColumnNumber in E1. destruct (index_of x r) as [i|] eqn:Ei; injection E1 as _ <-.
  - apply index_of_some, nth_error_In in Ei. split; [tauto|]. intros [H|[<-|H]]; auto.
  - rewrite in_app_iff. cbn. tauto.
Qed.
Lemma get_unrecognized : forall k f later n, file f0 <> [] -> readRowsE name (S k) f0 = Got f -> ~ In n history ->
  getFieldE name f (column (snd (newColumns reg later)) n) = Says DomainError (b_ "unrecognized column " ++ quoted n ++ in_row name (currentRow f)).
Proof.
  intros k f later n Hf Hr Hn. pose proof (first_row_read _ _ _ _ Hf Hr) as H0. destruct (rows_keep _ _ _ _ Hr) as [Hp _].
  destruct positions as [P _]. unfold getFieldE. rewrite (proj2 (N.eqb_neq _ _) H0), Hp.
  destruct (newColumns reg later) as [cs2 reg2] eqn:E2. cbn [snd]. destruct (newColumns_spec _ _ _ _ E2) as [_ [_ [[ext ->] _]]].
  assert (Hi : index_of n reg = None).
  { apply index_of_none. intro H. apply (reg_names _ _ _ _ Hreg) in H. destruct H as [[]|H]. contradiction. }
  assert (Hnum : (List.length reg <= cnumber (column (reg ++ ext) n))%nat /\ cname (column (reg ++ ext) n) = n).
  { unfold column, newColumn, getColumnNumber. rewrite (index_app n reg ext Hi). destruct (index_of n ext) as [i|]; cbn; [split; [lia|reflexivity]|].
    rewrite app_length. split; [lia|reflexivity]. }
  destruct Hnum as [Hnum ->]. rewrite (proj2 (nth_error_None _ _)) by (rewrite P; exact Hnum).
  unfold tableError, errorMsg, in_row, in_file, quoted. rewrite (proj2 (N.eqb_neq _ _) H0). rewrite <- !app_assoc. reflexivity.
Qed.
End Get.
