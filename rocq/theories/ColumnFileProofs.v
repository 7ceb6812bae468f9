(** Lemmas about column files. *)
From Verif Require Import BaseFacts ColumnFileModel ColumnFileSpec StringModel StringProofs.
From Coq Require Import Permutation.

(** ** Splitting *)

Lemma getlines_from_field : forall d f s cur p, ~ In d f ->
  getlines_from d (f ++ s) cur p =
  getlines_from d s (cur ++ f) (match f with [] => p | _ => true end).
Proof.
  intros d f. induction f as [|b f IH]; intros s cur p H.
  - rewrite app_nil_r. reflexivity.
  - cbn [app getlines_from]. replace (b =? d) with false.
    2:{ symmetry. apply N.eqb_neq. intros ->. apply H. left. reflexivity. }
    rewrite IH by (intro Hc; apply H; right; exact Hc).
    rewrite <- app_assoc. cbn [app]. destruct f; reflexivity.
Qed.

Lemma join_cons : forall d f g r, join d (f :: g :: r) = f ++ [d] ++ join d (g :: r).
Proof. reflexivity. Qed.

Lemma getlines_join : forall d fs, fs <> [] -> free_of d fs ->
  getlines d (join d fs) = strip_trailing_empty fs.
Proof.
  intros d fs Hne Hf. unfold getlines.
  induction Hf as [|f fs Hf1 Hf IH]; [exfalso; apply Hne; reflexivity|].
  destruct fs as [|g fs].
  - cbn [join strip_trailing_empty]. rewrite <- (app_nil_r f) at 1.
    rewrite getlines_from_field by exact Hf1.
    destruct f; reflexivity.
  - rewrite join_cons, getlines_from_field by exact Hf1.
    cbn [app getlines_from]. rewrite N.eqb_refl. apply (f_equal (cons f)). apply IH. discriminate.
Qed.

Lemma getlines_unlines : forall ls, free_of 10 ls ->
  getlines 10 (unlines ls) = ls.
Proof.
  intros ls H. unfold getlines, unlines. induction H as [|l ls Hl H IH]; [reflexivity|].
  cbn [flat_map]. rewrite <- app_assoc. rewrite getlines_from_field by exact Hl.
  cbn [app getlines_from]. change (10 =? 10) with true. cbv iota. f_equal. exact IH.
Qed.

(** every line has exactly one decomposition into fields *)
Fixpoint split_at (d : N) (s cur : bytes) : list bytes :=
  match s with
  | [] => [cur]
  | b :: r => if b =? d then cur :: split_at d r [] else split_at d r (cur ++ [b])
  end.
Lemma split_at_spec : forall d s cur, ~ In d cur ->
  split_at d s cur <> [] /\ free_of d (split_at d s cur) /\ cur ++ s = join d (split_at d s cur).
Proof.
  intros d s. induction s as [|b s IH]; intros cur Hc; cbn [split_at].
  - split; [discriminate|]. split; [constructor; [exact Hc|constructor]|].
    rewrite app_nil_r. reflexivity.
  - destruct (b =? d) eqn:E.
    + apply N.eqb_eq in E. subst b.
      destruct (IH [] (@in_nil _ d)) as [H1 [H2 H3]]. split; [discriminate|].
      split; [constructor; assumption|].
      destruct (split_at d s []) as [|g r] eqn:Es; [congruence|].
      rewrite join_cons, <- H3. reflexivity.
    + apply N.eqb_neq in E.
      destruct (IH (cur ++ [b])) as [H1 [H2 H3]].
      { intro Hi. apply in_app_or in Hi. destruct Hi as [Hi|[Hi|[]]]; [exact (Hc Hi)|congruence]. }
      split; [exact H1|]. split; [exact H2|]. rewrite <- app_assoc in H3. exact H3.
Qed.
Lemma fields_exist : forall d line, exists fs, has_fields d line fs.
Proof.
  intros d line. exists (split_at d line []).
  destruct (split_at_spec d line [] (@in_nil _ d)) as [H1 [H2 H3]]. repeat split; assumption.
Qed.

(** ** ends_with *)

Lemma last_byte_app : forall s b, last_byte (s ++ [b]) = Some b.
Proof.
  induction s as [|x s IH]; intro b; [reflexivity|].
  cbn [app last_byte]. rewrite IH. destruct (s ++ [b]) eqn:E; [destruct s; discriminate|reflexivity].
Qed.
Lemma last_byte_app2 : forall s t, t <> [] -> last_byte (s ++ t) = last_byte t.
Proof.
  intros s t Ht. destruct (exists_last Ht) as [t' [b ->]].
  rewrite app_assoc, !last_byte_app. reflexivity.
Qed.

Lemma join_snoc : forall d fs f, fs <> [] -> join d (fs ++ [f]) = join d fs ++ [d] ++ f.
Proof.
  intros d fs f H. induction fs as [|g fs IH]; [congruence|].
  destruct fs as [|g2 fs]; [reflexivity|].
  change ((g :: g2 :: fs) ++ [f]) with (g :: (g2 :: fs) ++ [f]).
  cbn [app]. rewrite !join_cons. change (g2 :: fs ++ [f]) with ((g2 :: fs) ++ [f]).
  rewrite IH by discriminate. rewrite <- !app_assoc. reflexivity.
Qed.

Lemma last_byte_free : forall d f, ~ In d f -> last_byte f <> Some d.
Proof.
  intros d f. induction f as [|b f IH]; intro H; cbn [last_byte]; [discriminate|].
  destruct f as [|c f].
  - intro E. inversion E; subst. apply H. left. reflexivity.
  - apply IH. intro Hi. apply H. right. exact Hi.
Qed.

Lemma strip_trailing_empty_snoc : forall fs f, strip_trailing_empty (fs ++ [f]) =
  match f with [] => fs | _ => fs ++ [f] end.
Proof.
  induction fs as [|g fs IH]; intro f.
  - destruct f; reflexivity.
  - cbn [app strip_trailing_empty].
    destruct (fs ++ [f]) eqn:E; [destruct fs; discriminate|]. rewrite <- E, IH.
    destruct f; reflexivity.
Qed.

Lemma ends_with_join : forall d fs f, free_of d (fs ++ [f]) ->
  ends_with (join d (fs ++ [f])) d =
  match fs, f with _ :: _, [] => true | _, _ => false end.
Proof.
  intros d fs f H. unfold ends_with. apply Forall_app in H. destruct H as [_ H].
  apply Forall_cons_iff in H. destruct H as [Hf _].
  destruct fs as [|g fs].
  - cbn [app join]. pose proof (last_byte_free d f Hf).
    destruct (last_byte f) as [b|]; [|reflexivity].
    apply N.eqb_neq. intros ->. congruence.
  - rewrite join_snoc by discriminate.
    destruct f as [|b f].
    + rewrite last_byte_app2 by discriminate. cbn. apply N.eqb_refl.
    + change ([d] ++ b :: f) with ([d] ++ (b :: f)). rewrite app_assoc.
      rewrite last_byte_app2 by discriminate.
      pose proof (last_byte_free d (b :: f) Hf).
      destruct (last_byte (b :: f)) as [c|]; [|reflexivity].
      apply N.eqb_neq. intros ->. congruence.
Qed.

(** ** Rows *)

Lemma update_length : forall A (l : list A) i x, List.length (update l i x) = List.length l.
Proof. induction l as [|y l IH]; intros [|i] x; cbn [update List.length]; auto. Qed.

Lemma update_app : forall A (l r : list A) y x, update (l ++ y :: r) (List.length l) x = l ++ x :: r.
Proof. induction l as [|z l IH]; intros r y x; cbn; [reflexivity|]. rewrite IH. reflexivity. Qed.

Lemma nth_update_same : forall A (l : list A) i x, (i < List.length l)%nat ->
  nth_error (update l i x) i = Some x.
Proof.
  induction l as [|y l IH]; intros [|i] x H; cbn in *; try lia; [reflexivity|].
  apply IH. lia.
Qed.
Lemma nth_update_other : forall A (l : list A) i j x, i <> j ->
  nth_error (update l i x) j = nth_error l j.
Proof.
  induction l as [|y l IH]; intros [|i] [|j] x H; cbn; try reflexivity; try lia.
  apply IH. lia.
Qed.

Lemma storeFields_spec : forall fs pre post,
  storeFields fs (List.length pre) (pre ++ post) =
  if (List.length fs <=? List.length post)%nat
  then Some ((List.length pre + List.length fs)%nat, pre ++ fs ++ skipn (List.length fs) post)
  else None.
Proof.
  induction fs as [|f fs IH]; intros pre post; cbn [storeFields List.length].
  - cbn [Nat.leb]. rewrite Nat.add_0_r. cbn [skipn app]. reflexivity.
  - rewrite app_length. destruct post as [|p post]; cbn [List.length].
    + rewrite Nat.add_0_r, Nat.eqb_refl. reflexivity.
    + replace (List.length pre =? List.length pre + S (List.length post))%nat with false
        by (symmetry; apply Nat.eqb_neq; lia).
      rewrite update_app.
      change (pre ++ f :: post) with (pre ++ [f] ++ post). rewrite app_assoc.
      replace (S (List.length pre)) with (List.length (pre ++ [f]))
        by (rewrite app_length; cbn; lia).
      rewrite IH. cbn [Nat.leb skipn].
      destruct (List.length fs <=? List.length post)%nat; [|reflexivity].
      f_equal. f_equal; [rewrite app_length; cbn; lia|].
      rewrite <- app_assoc. reflexivity.
Qed.

Definition with_row (f : ColumnFile) (rest : list bytes) (vals : list bytes) : ColumnFile :=
  {| file := rest; delimiter := delimiter f; currentRow := currentRow f + 1;
     rowValues := vals; columnToPosition := columnToPosition f |}.

Lemma nextRow_fields : forall f line rest fs,
  file f = line :: rest -> (1 <= List.length (rowValues f))%nat ->
  has_fields (delimiter f) line fs ->
  nextRow f =
    if (List.length fs =? List.length (rowValues f))%nat then Val (true, with_row f rest fs)
    else if (List.length fs =? S (List.length (rowValues f)))%nat
            && match last fs [0] with [] => true | _ => false end
    then Val (true, with_row f rest (removelast fs))
    else Throw DomainError.
Proof.
  intros f line rest fs Hfile Hn [Hne [Hfree Hline]].
  destruct (exists_last Hne) as [init [x ->]].
  unfold nextRow. rewrite Hfile. subst line.
  rewrite getlines_join by assumption. rewrite strip_trailing_empty_snoc.
  rewrite removelast_last, last_last.
  rewrite app_length. cbn [List.length]. rewrite Nat.add_1_r.
  set (n := List.length (rowValues f)) in *.
  change (rowValues f) with ([] ++ rowValues f) at 1.
  change 0%nat with (List.length (@nil bytes)) at 1.
  rewrite storeFields_spec.
  rewrite ends_with_join by exact Hfree. fold n.
  cbn [List.length Nat.add app].
  destruct x as [|b x].
  - (* last field empty *)
    cbn [andb].
    destruct (List.length init <=? n)%nat eqn:E1.
    + apply Nat.leb_le in E1.
      destruct (List.length init =? n - 1)%nat eqn:E2.
      * apply Nat.eqb_eq in E2.
        replace (S (List.length init) =? n)%nat with true by (symmetry; apply Nat.eqb_eq; lia).
        match goal with |- context [if ?c && ?d then _ else _] =>
          replace d with true by (destruct init as [|g init]; reflexivity) end.
        cbn [andb]. unfold with_row. repeat f_equal.
        assert (Hskip : exists y, skipn (List.length init) (rowValues f) = [y]).
        { pose proof (skipn_length (List.length init) (rowValues f)) as Hs. fold n in Hs.
          replace (n - List.length init)%nat with 1%nat in Hs by lia.
          destruct (skipn (List.length init) (rowValues f)) as [|y [|z r]]; cbn in Hs; try lia.
          exists y. reflexivity. }
        destruct Hskip as [y Hy]. rewrite Hy. rewrite <- E2. apply update_app.
      * apply Nat.eqb_neq in E2. cbn [andb].
        destruct (List.length init <? n)%nat eqn:E3.
        -- apply Nat.ltb_lt in E3.
           replace (S (List.length init) =? n)%nat with false by (symmetry; apply Nat.eqb_neq; lia).
           replace (S (List.length init) =? S n)%nat with false by (symmetry; apply Nat.eqb_neq; lia).
           reflexivity.
        -- apply Nat.ltb_ge in E3.
           replace (S (List.length init) =? n)%nat with false by (symmetry; apply Nat.eqb_neq; lia).
           replace (S (List.length init) =? S n)%nat with true by (symmetry; apply Nat.eqb_eq; lia).
           cbn [andb]. unfold with_row. repeat f_equal.
           replace (List.length init) with n by lia.
           unfold n. rewrite skipn_all. apply app_nil_r.
    + apply Nat.leb_gt in E1.
      replace (S (List.length init) =? n)%nat with false by (symmetry; apply Nat.eqb_neq; lia).
      replace (S (List.length init) =? S n)%nat with false by (symmetry; apply Nat.eqb_neq; lia).
      reflexivity.
  - (* last field not empty *)
    rewrite app_length. cbn [List.length]. rewrite Nat.add_1_r.
    rewrite andb_false_r.
    destruct (S (List.length init) <=? n)%nat eqn:E1.
    + apply Nat.leb_le in E1. change (S (List.length init) =? 0)%nat with false. cbv iota.
      replace (match init with [] => false | _ :: _ => false end) with false by (destruct init; reflexivity).
      rewrite andb_false_r.
      destruct (S (List.length init) <? n)%nat eqn:E3.
      * apply Nat.ltb_lt in E3.
        replace (S (List.length init) =? n)%nat with false by (symmetry; apply Nat.eqb_neq; lia).
        reflexivity.
      * apply Nat.ltb_ge in E3.
        replace (S (List.length init) =? n)%nat with true by (symmetry; apply Nat.eqb_eq; lia).
        rewrite skipn_all2 by (fold n; lia). rewrite app_nil_r. reflexivity.
    + apply Nat.leb_gt in E1.
      replace (S (List.length init) =? n)%nat with false by (symmetry; apply Nat.eqb_neq; lia).
      reflexivity.
Qed.

(** ** Registry *)

Lemma index_of_some : forall name l i, index_of name l = Some i -> nth_error l i = Some name.
Proof.
  intros name l. induction l as [|x l IH]; intros i H; cbn [index_of] in H; [discriminate|].
  destruct (beq x name) eqn:E.
  - inversion H; subst. apply beq_eq in E. subst. reflexivity.
  - destruct (index_of name l) as [j|]; [|discriminate]. inversion H; subst.
    cbn. apply IH. reflexivity.
Qed.
Lemma index_of_none : forall name l, index_of name l = None <-> ~ In name l.
Proof.
  intros name l. induction l as [|x l IH]; cbn [index_of In]; [tauto|].
  destruct (beq x name) eqn:E.
  - apply beq_eq in E. split; [discriminate|]. intro H. exfalso. apply H. left. exact E.
  - apply beq_neq in E. destruct (index_of name l); cbn [option_map].
    + split; [discriminate|]. intro H. exfalso.
      destruct IH as [_ IH]. assert (~ In name l) by tauto. specialize (IH H0). discriminate.
    + split; [|reflexivity]. intros _. destruct IH as [IH _]. specialize (IH eq_refl). tauto.
Qed.

(** a column that was created from the registry (as it was or has been extended) *)
Definition registered (reg : registry) (c : Column) : Prop :=
  nth_error reg (cnumber c) = Some (cname c).

Lemma newColumn_registered : forall reg name,
  registered (snd (newColumn reg name)) (fst (newColumn reg name))
  /\ cname (fst (newColumn reg name)) = name
  /\ (exists ext, snd (newColumn reg name) = reg ++ ext)
  /\ (NoDup reg -> NoDup (snd (newColumn reg name))).
Proof.
  intros reg name. unfold newColumn, getColumnNumber, registered.
  destruct (index_of name reg) as [i|] eqn:E; cbn.
  - repeat split; [apply index_of_some; exact E|exists []; rewrite app_nil_r; reflexivity|auto].
  - repeat split.
    + rewrite nth_error_app2, Nat.sub_diag by lia. reflexivity.
    + exists [name]. reflexivity.
    + intro H. apply index_of_none in E.
      apply NoDup_Add with (a := name) (l := reg).
      * rewrite <- (app_nil_r reg) at 1. apply Add_app.
      * split; assumption.
Qed.

Lemma registered_inj : forall reg a b, NoDup reg -> registered reg a -> registered reg b ->
  (cnumber a = cnumber b <-> cname a = cname b).
Proof.
  intros reg a b Hnd Ha Hb. unfold registered in *. split; intro H.
  - rewrite H in Ha. congruence.
  - rewrite H in Ha. rewrite NoDup_nth_error in Hnd. apply Hnd.
    + apply nth_error_Some. congruence.
    + congruence.
Qed.

(** ** Header *)

Lemma findCol_some : forall name cs c, findCol name cs = Some c -> In c cs /\ cname c = name.
Proof.
  intros name cs c H. unfold findCol in H. apply find_some in H. destruct H as [H1 H2].
  apply beq_eq in H2. split; assumption.
Qed.
Lemma findCol_none : forall name cs, findCol name cs = None -> ~ In name (map cname cs).
Proof.
  intros name cs H Hin. apply in_map_iff in Hin. destruct Hin as [c [Hc Hin]].
  pose proof (find_none _ _ H c Hin) as E. cbv beta in E. apply beq_neq in E. congruence.
Qed.

Lemma eraseCol_in : forall name cs c, In c (eraseCol name cs) <-> In c cs /\ cname c <> name.
Proof.
  intros name cs c. unfold eraseCol. rewrite filter_In.
  rewrite negb_true_iff, beq_neq. tauto.
Qed.
Lemma eraseCol_nodup : forall name cs, NoDup (map cname cs) -> NoDup (map cname (eraseCol name cs)).
Proof.
  intros name cs. induction cs as [|c cs IH]; intro H; [constructor|].
  cbn [map] in H. apply NoDup_cons_iff in H. destruct H as [H1 H2].
  unfold eraseCol. cbn [filter]. destruct (negb (beq (cname c) name)); cbn [map].
  - constructor; [|apply IH; exact H2].
    intro Hin. apply H1. apply in_map_iff in Hin. destruct Hin as [d [Hd Hin]].
    apply filter_In in Hin. destruct Hin as [Hin _]. apply in_map_iff. exists d. split; assumption.
  - apply IH. exact H2.
Qed.
Lemma eraseCol_perm : forall name cs, NoDup (map cname cs) -> In name (map cname cs) ->
  Permutation (map cname cs) (name :: map cname (eraseCol name cs)).
Proof.
  intros name cs. induction cs as [|c cs IH]; intros Hnd Hin; [contradiction|].
  cbn [map] in *. apply NoDup_cons_iff in Hnd. destruct Hnd as [H1 H2].
  unfold eraseCol. cbn [filter]. destruct (beq (cname c) name) eqn:E; cbn [negb].
  - apply beq_eq in E. subst name. apply perm_skip.
    replace (filter (fun c0 => negb (beq (cname c0) (cname c))) cs) with cs; [apply Permutation_refl|].
    clear IH Hin H2. induction cs as [|d cs IH]; [reflexivity|]. cbn [filter map] in *.
    destruct (beq (cname d) (cname c)) eqn:E.
    + exfalso. apply H1. left. apply beq_eq. exact E.
    + cbn [negb]. f_equal. apply IH. intro H. apply H1. right. exact H.
  - apply beq_neq in E. destruct Hin as [Hin|Hin]; [congruence|].
    cbn [map]. eapply perm_trans; [apply perm_skip; apply IH; assumption|]. apply perm_swap.
Qed.

Lemma existsb_beq : forall h l, existsb (beq h) l = true <-> In h l.
Proof.
  intros h l. rewrite existsb_exists. split.
  - intros [x [Hx E]]. apply beq_eq in E. subst. exact Hx.
  - intro H. exists h. split; [exact H|apply beq_refl].
Qed.

Lemma nodup_map_inj : forall A B (f : A -> B) l a b,
  NoDup (map f l) -> In a l -> In b l -> f a = f b -> a = b.
Proof.
  intros A B f l a b. induction l as [|e l IH]; intros Hn Ha Hb E; [contradiction|].
  cbn [map] in Hn. apply NoDup_cons_iff in Hn. destruct Hn as [N1 N2].
  destruct Ha as [Ha|Ha], Hb as [Hb|Hb]; subst; auto.
  - exfalso. apply N1. rewrite E. apply in_map. exact Hb.
  - exfalso. apply N1. rewrite <- E. apply in_map. exact Ha.
Qed.

Definition numbers_ok (cs : list Column) (ctp : list (option nat)) : Prop :=
  Forall (fun c => (cnumber c < List.length ctp)%nat) cs
  /\ NoDup (map cnumber cs).

Lemma processHeader_sound : forall hs pos found cs ctp m ctp',
  NoDup (map cname cs) -> numbers_ok cs ctp ->
  processHeader hs pos found cs ctp = Val (m, ctp') ->
  Permutation (map cname cs) (hs ++ map cname m)
  /\ List.length ctp' = List.length ctp
  /\ (forall c k, In c cs -> nth_error hs k = Some (cname c) ->
        nth_error ctp' (cnumber c) = Some (Some (pos + k)%nat))
  /\ (forall j, (forall c, In c cs -> In (cname c) hs -> cnumber c <> j) ->
        nth_error ctp' j = nth_error ctp j).
Proof.
  induction hs as [|h hs IH]; intros pos found cs ctp m ctp' Hnd Hnum H; cbn [processHeader] in H.
  - inversion H; subst. split; [apply Permutation_refl|]. split; [reflexivity|]. split.
    + intros c k _ Hk. rewrite nth_error_nil_none in Hk. discriminate.
    + reflexivity.
  - destruct (existsb (beq h) found) eqn:Ef; [discriminate|].
    destruct (findCol h cs) as [c|] eqn:Ec; [|discriminate].
    destruct (cnumber c <? List.length ctp)%nat eqn:En; [|discriminate].
    apply Nat.ltb_lt in En. apply findCol_some in Ec. destruct Ec as [Hc Hname].
    assert (Hin : In h (map cname cs)) by (rewrite <- Hname; apply in_map; exact Hc).
    pose proof (eraseCol_perm h cs Hnd Hin) as Hperm.
    assert (Hnum' : numbers_ok (eraseCol h cs) (update ctp (cnumber c) (Some pos))).
    { destruct Hnum as [Hn1 Hn2]. split.
      - rewrite update_length. apply Forall_forall. intros d Hd. apply eraseCol_in in Hd.
        rewrite Forall_forall in Hn1. apply Hn1. tauto.
      - clear -Hn2. induction cs as [|d cs IH]; [constructor|]. cbn [map] in Hn2.
        apply NoDup_cons_iff in Hn2. destruct Hn2 as [H1 H2]. unfold eraseCol. cbn [filter].
        destruct (negb (beq (cname d) h)); cbn [map]; [|apply IH; exact H2].
        constructor; [|apply IH; exact H2]. intro Hin. apply H1.
        apply in_map_iff in Hin. destruct Hin as [e [He Hin]]. apply filter_In in Hin.
        apply in_map_iff. exists e. tauto. }
    destruct (IH _ _ _ _ _ _ (eraseCol_nodup h cs Hnd) Hnum' H) as [P1 [P2 [P3 P4]]].
    assert (Hhnin : ~ In h hs).
    { intro Hh. assert (Hh' : In h (map cname (eraseCol h cs))).
      { eapply Permutation_in; [apply Permutation_sym; exact P1|]. apply in_or_app. left. exact Hh. }
      apply in_map_iff in Hh'. destruct Hh' as [d [Hd1 Hd2]]. apply eraseCol_in in Hd2. tauto. }
    assert (Hdiff : forall d, In d cs -> cname d <> h -> cnumber d <> cnumber c).
    { intros d Hd Hne E. destruct Hnum as [_ Hn2]. apply Hne.
      rewrite (nodup_map_inj _ _ cnumber cs d c Hn2 Hd Hc E). exact Hname. }
    split; [|split; [|split]].
    + eapply perm_trans; [exact Hperm|]. cbn [app]. apply perm_skip. exact P1.
    + rewrite P2, update_length. reflexivity.
    + intros d k Hd Hk. destruct k as [|k]; cbn [nth_error] in Hk.
      * inversion Hk as [Hd']. assert (d = c).
        { apply (nodup_map_inj _ _ cname cs d c Hnd Hd Hc). congruence. }
        subst d. rewrite P4.
        -- rewrite Nat.add_0_r. apply nth_update_same. exact En.
        -- intros d Hd2 Hd3. apply eraseCol_in in Hd2. apply Hdiff; tauto.
      * assert (cname d <> h).
        { intro E. apply Hhnin. rewrite <- E. eapply nth_error_In. exact Hk. }
        replace (pos + S k)%nat with (S pos + k)%nat by lia. apply P3; [|exact Hk].
        apply eraseCol_in. split; assumption.
    + intros j Hj. rewrite P4.
      * apply nth_update_other. apply Hj; [exact Hc|]. left. symmetry. exact Hname.
      * intros d Hd1 Hd2. apply eraseCol_in in Hd1. apply Hj; [tauto|right; exact Hd2].
Qed.

Lemma processHeader_complete : forall hs pos found cs ctp m,
  NoDup (map cname cs) -> numbers_ok cs ctp ->
  (forall x, In x found -> ~ In x (map cname cs)) ->
  Permutation (map cname cs) (hs ++ m) ->
  exists m' ctp', processHeader hs pos found cs ctp = Val (m', ctp') /\ List.length m' = List.length m.
Proof.
  induction hs as [|h hs IH]; intros pos found cs ctp m Hnd Hnum Hfound Hp; cbn [processHeader].
  - exists cs, ctp. split; [reflexivity|]. cbn [app] in Hp. apply Permutation_length in Hp.
    rewrite map_length in Hp. exact Hp.
  - assert (Hin : In h (map cname cs)).
    { eapply Permutation_in; [apply Permutation_sym; exact Hp|]. left. reflexivity. }
    destruct (existsb (beq h) found) eqn:Ef.
    { apply existsb_beq in Ef. exfalso. exact (Hfound h Ef Hin). }
    destruct (findCol h cs) as [c|] eqn:Ec.
    2:{ exfalso. exact (findCol_none _ _ Ec Hin). }
    apply findCol_some in Ec. destruct Ec as [Hc Hname].
    destruct Hnum as [Hn1 Hn2].
    assert (Hlt : (cnumber c < List.length ctp)%nat).
    { rewrite Forall_forall in Hn1. apply Hn1. exact Hc. }
    apply Nat.ltb_lt in Hlt. rewrite Hlt.
    pose proof (eraseCol_perm h cs Hnd Hin) as Hperm.
    apply IH.
    + apply eraseCol_nodup. exact Hnd.
    + split.
      * rewrite update_length. apply Forall_forall. intros d Hd. apply eraseCol_in in Hd.
        rewrite Forall_forall in Hn1. apply Hn1. tauto.
      * clear -Hn2. induction cs as [|d cs IH]; [constructor|]. cbn [map] in Hn2.
        apply NoDup_cons_iff in Hn2. destruct Hn2 as [H1 H2]. unfold eraseCol. cbn [filter].
        destruct (negb (beq (cname d) h)); cbn [map]; [|apply IH; exact H2].
        constructor; [|apply IH; exact H2]. intro Hin. apply H1.
        apply in_map_iff in Hin. destruct Hin as [e [He Hin]]. apply filter_In in Hin.
        apply in_map_iff. exists e. tauto.
    + intros x [<-|Hx] Hx2.
      * apply in_map_iff in Hx2. destruct Hx2 as [d [Hd1 Hd2]]. apply eraseCol_in in Hd2. tauto.
      * apply (Hfound x Hx). apply in_map_iff in Hx2. destruct Hx2 as [d [Hd1 Hd2]].
        apply eraseCol_in in Hd2. apply in_map_iff. exists d. tauto.
    + apply Permutation_cons_inv with (a := h).
      eapply perm_trans; [apply Permutation_sym; exact Hperm|]. exact Hp.
Qed.

Lemma processHeader_no_ub : forall hs pos found cs ctp,
  numbers_ok cs ctp ->
  (exists r, processHeader hs pos found cs ctp = Val r)
  \/ processHeader hs pos found cs ctp = Throw DomainError.
Proof.
  induction hs as [|h hs IH]; intros pos found cs ctp Hnum; cbn [processHeader].
  - left. eexists. reflexivity.
  - destruct (existsb (beq h) found); [right; reflexivity|].
    destruct (findCol h cs) as [c|] eqn:Ec; [|right; reflexivity].
    apply findCol_some in Ec. destruct Ec as [Hc Hname]. destruct Hnum as [Hn1 Hn2].
    rewrite Forall_forall in Hn1. pose proof (Hn1 c Hc) as Hlt. apply Nat.ltb_lt in Hlt. rewrite Hlt.
    apply IH. split.
    + rewrite update_length. apply Forall_forall. intros d Hd. apply eraseCol_in in Hd. apply Hn1. tauto.
    + clear -Hn2. induction cs as [|d cs IH]; [constructor|]. cbn [map] in Hn2.
      apply NoDup_cons_iff in Hn2. destruct Hn2 as [H1 H2]. unfold eraseCol. cbn [filter].
      destruct (negb (beq (cname d) h)); cbn [map]; [|apply IH; exact H2].
      constructor; [|apply IH; exact H2]. intro Hin. apply H1.
      apply in_map_iff in Hin. destruct Hin as [e [He Hin]]. apply filter_In in Hin.
      apply in_map_iff. exists e. tauto.
Qed.

Lemma emplaceColumns_some : forall cs acc, NoDup (map cname (acc ++ cs)) ->
  emplaceColumns cs acc = Some (acc ++ cs).
Proof.
  induction cs as [|c cs IH]; intros acc H; cbn [emplaceColumns].
  - rewrite app_nil_r. reflexivity.
  - destruct (existsb (fun d => beq (cname d) (cname c)) acc) eqn:E.
    + exfalso. apply existsb_exists in E. destruct E as [d [Hd E]]. apply beq_eq in E.
      rewrite map_app in H. cbn [map] in H. apply NoDup_remove_2 in H. apply H.
      apply in_or_app. left. rewrite <- E. apply in_map. exact Hd.
    + replace (acc ++ c :: cs) with ((acc ++ [c]) ++ cs) in * by (rewrite <- app_assoc; reflexivity).
      apply IH. exact H.
Qed.
Lemma emplaceColumns_none : forall cs acc, NoDup (map cname acc) ->
  ~ NoDup (map cname (acc ++ cs)) -> emplaceColumns cs acc = None.
Proof.
  induction cs as [|c cs IH]; intros acc Hacc H; cbn [emplaceColumns].
  - rewrite app_nil_r in H. contradiction.
  - destruct (existsb (fun d => beq (cname d) (cname c)) acc) eqn:E; [reflexivity|].
    apply IH.
    + rewrite map_app. cbn [map]. apply NoDup_Add with (a := cname c) (l := map cname acc).
      * rewrite <- (app_nil_r (map cname acc)) at 1. apply Add_app.
      * split; [exact Hacc|]. intro Hin. apply in_map_iff in Hin. destruct Hin as [d [Hd Hin]].
        assert (existsb (fun d => beq (cname d) (cname c)) acc = true); [|congruence].
        apply existsb_exists. exists d. split; [exact Hin|]. apply beq_eq. exact Hd.
    + rewrite <- app_assoc. cbn [app]. exact H.
Qed.
