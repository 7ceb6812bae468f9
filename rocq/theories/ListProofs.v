(** Lemmas about list files. *)
From Verif Require Import BaseFacts MapProofs ColumnFileProofs Utf8Validate Utf8Lemmas ListModel ListSpec.
Arguments N.mul : simpl never. Arguments N.add : simpl never. Arguments N.sub : simpl never.

(** ** Cutting text *)
Lemma getlines_generic_ok : forall d s cur p, bytes_ok s -> bytes_ok cur ->
  Forall bytes_ok (getlines_from d s cur p).
Proof.
  intros d. induction s as [|b s IH]; intros cur p Hs Hc; cbn [getlines_from].
  - destruct p; constructor; [exact Hc|constructor].
  - inversion Hs as [|? ? Hb Hs']; subst. destruct (b =? d).
    + constructor; [exact Hc|]. apply IH; [exact Hs'|constructor].
    + apply IH; [exact Hs'|]. apply bytes_ok_app. split; [exact Hc|]. constructor; [exact Hb|constructor].
Qed.
Lemma cut_getlines : forall d s ps, cut d s ps <-> ps = getlines d s.
Proof.
  intros d s ps. split.
  - intros [fs [[Hne [Hfree ->]] ->]]. symmetry. apply getlines_join; assumption.
  - intros ->. destruct (split_at_spec d s [] (@in_nil _ d)) as [H1 [H2 H3]].
    exists (split_at d s []). split; [split; [exact H1|split; [exact H2|exact H3]]|].
    cbn [app] in H3. rewrite H3 at 1. apply getlines_join; assumption.
Qed.
Lemma file_words_fun : forall c ls, file_words c ls <->
  ls = map (fun l => (l, getlines 32 l)) (getlines 10 c).
Proof.
  intros c ls. unfold file_words. rewrite cut_getlines. split.
  - intros [H1 H2]. rewrite <- H1. clear H1. induction H2 as [|[l w] ls H _ IH]; [reflexivity|].
    cbn [map fst snd] in *. apply cut_getlines in H. subst w. f_equal. exact IH.
  - intros ->. rewrite map_map. cbn [fst]. rewrite map_id. split; [reflexivity|].
    apply Forall_map. apply Forall_forall. intros l _. cbn [fst snd]. apply cut_getlines. reflexivity.
Qed.

(** ** Sets *)
Lemma sset_has_in : forall t s, sset_has t s = true <-> In t s.
Proof.
  intros t s. unfold sset_has. rewrite existsb_exists. split.
  - intros [x [Hx E]]. apply beq_eq in E. subst. exact Hx.
  - intro H. exists t. split; [exact H|apply beq_refl].
Qed.
Lemma sset_has_not : forall t s, sset_has t s = false <-> ~ In t s.
Proof. intros. rewrite <- sset_has_in. destruct (sset_has t s); split; congruence. Qed.

Lemma valid_token : forall t, bytes_ok t -> exists b, isValidMBUtf8 t true = Val b /\ (b = true <-> mb_char t).
Proof.
  intros t H. pose proof (validate_spec t U8Valid true H) as V.
  destruct (valid_multi_byte t H) as [_ [K _]]. unfold mb_char.
  unfold isValidMBUtf8, validateMBUtf8 in *.
  destruct (validateMBUtf8_err t U8Valid true) as [[r e]| | |]; try discriminate. cbn [obind] in *.
  eexists. split; [reflexivity|]. rewrite <- K. split; [intros ->; reflexivity|intro E; injection E; auto].
Qed.

(** ** Positions *)
Definition list_inv (l : ListFile) : Prop :=
  msorted (indexOf l) /\ NoDup (listOf l) /\ len (listOf l) <= MaxEntries
  /\ forall w i, mfind w (indexOf l) = Some i <->
       exists j, nth_error (listOf l) j = Some w /\ i = N.of_nat j + 1.
Lemma list_inv_empty : list_inv emptyList.
Proof.
  repeat split; try constructor; try (intro; discriminate).
  intros [j [H _]]. destruct j; discriminate.
Qed.
Lemma list_inv_find : forall l w, list_inv l -> (mfind w (indexOf l) = None <-> ~ In w (listOf l)).
Proof.
  intros l w [_ [_ [_ H]]]. destruct (mfind w (indexOf l)) as [i|] eqn:E.
  - apply H in E. destruct E as [j [Hj _]]. split; [discriminate|]. intro K. exfalso. apply K.
    eapply nth_error_In. exact Hj.
  - split; [|reflexivity]. intros _ Hin. apply In_nth_error in Hin. destruct Hin as [j Hj].
    assert (mfind w (indexOf l) = Some (N.of_nat j + 1)) as K by (apply H; exists j; split; [exact Hj|reflexivity]).
    congruence.
Qed.
Lemma NoDup_snoc : forall (A : Type) (l : list A) x, NoDup l -> ~ In x l -> NoDup (l ++ [x]).
Proof.
  intros A l x Hn. induction Hn as [|a l Ha Hn IH]; intro Hx; cbn [app].
  - constructor; [intros []|constructor].
  - constructor.
    + intro Hin. apply in_app_or in Hin. destruct Hin as [Hin|[E|[]]]; [contradiction|]. subst. apply Hx. left. reflexivity.
    + apply IH. intro H. apply Hx. right. exact H.
Qed.
Lemma addEntry_spec : forall l t, list_inv l -> ~ In t (listOf l) ->
  match addEntry t l with
  | Some l' => len (listOf l) < MaxEntries /\ list_inv l' /\ listOf l' = listOf l ++ [t]
  | None => len (listOf l) = MaxEntries
  end.
Proof.
  intros l t Hi Hn. unfold addEntry. pose proof Hi as [Hs [Hd [Hl Hf]]].
  destruct (len (listOf l) =? MaxEntries) eqn:E; [apply N.eqb_eq; exact E|]. apply N.eqb_neq in E.
  split; [lia|]. cbn [listOf indexOf]. split; [|reflexivity].
  rewrite (proj2 (list_inv_find l t Hi) Hn).
  assert (Hu : u16 (len (listOf l ++ [t])) = N.of_nat (List.length (listOf l)) + 1).
  { rewrite len_app, len_cons, len_nil. unfold u16. rewrite N.mod_small; unfold MaxEntries, len in *; lia. }
  unfold list_inv. cbn [listOf indexOf]. split; [apply mupdate_sorted; exact Hs|].
  split; [apply NoDup_snoc; assumption|].
  split; [rewrite len_app, len_cons, len_nil; lia|].
  intros w i. destruct (bytes_eq_dec w t) as [->|Hne].
  - rewrite mupdate_same by exact Hs. rewrite Hu. split.
    + intro K. inversion K; subst. exists (List.length (listOf l)).
      rewrite nth_error_app2, Nat.sub_diag by lia. split; reflexivity.
    + intros [j [Hj ->]]. f_equal. f_equal. f_equal.
      destruct (Nat.lt_ge_cases j (List.length (listOf l))) as [Hlt|Hge].
      * rewrite nth_error_app1 in Hj by exact Hlt. exfalso. apply Hn. eapply nth_error_In. exact Hj.
      * rewrite nth_error_app2 in Hj by exact Hge. destruct (j - List.length (listOf l))%nat eqn:Ej; [lia|].
        destruct n; discriminate.
  - rewrite mupdate_other by congruence. rewrite Hf. split; intros [j [Hj ->]]; exists j; split; try reflexivity.
    + rewrite nth_error_app1; [exact Hj|]. apply nth_error_Some. congruence.
    + destruct (Nat.lt_ge_cases j (List.length (listOf l))) as [Hlt|Hge].
      * rewrite nth_error_app1 in Hj by exact Hlt. exact Hj.
      * rewrite nth_error_app2 in Hj by exact Hge. destruct (j - List.length (listOf l))%nat; [cbn in Hj; congruence|destruct n; discriminate].
Qed.

(** ** The loop over all tokens, seen as one sequence *)
Fixpoint run (ft : FileType) (own : bool) (xs : list item) (l : ListFile) (dups : list bytes) (s : sset)
  : out (step (ListFile * list bytes)) :=
  match xs with
  | [] => Val (Done s (l, dups))
  | ((num, line), token) :: r =>
      if match ft with OnePerLine => negb (beq token line) | MultiplePerLine => false end
      then Val (Failed s (MultipleTokens num))
      else
        v <- validate own num token l s ;;
        match v with
        | Failed s' e => Val (Failed s' e)
        | Done s' false => run ft own r l (dups ++ [token]) s'
        | Done s' true =>
            match addEntry token l with
            | None => Val (Failed s' TooManyEntries)
            | Some l' => run ft own r l' dups s'
            end
        end
  end.
Definition items (num : N) (lines : list bytes) : list item :=
  numbered num (map (fun l => (l, getlines 32 l)) lines).
Lemma run_tokens : forall ft own num line ts xs l dups s,
  run ft own (map (fun t => (num, line, t)) ts ++ xs) l dups s =
  (v <- loadTokens ft own num line ts l dups s ;;
   match v with
   | Failed s' e => Val (Failed s' e)
   | Done s' (l', dups') => run ft own xs l' dups' s'
   end).
Proof.
  intros ft own num line ts xs. induction ts as [|t ts IH]; intros l dups s; [reflexivity|].
  cbn [map app run loadTokens].
  destruct (match ft with OnePerLine => negb (beq t line) | MultiplePerLine => false end); [reflexivity|].
  destruct (validate own num t l s) as [v| | |]; [|reflexivity..]. cbn [obind].
  destruct v as [s' b|s' e]; [|reflexivity]. destruct b; [|apply IH].
  destruct (addEntry t l) as [l'|]; [apply IH|reflexivity].
Qed.
Lemma run_lines : forall ft own lines num l dups s,
  loadLines ft own num lines l dups s = run ft own (items num lines) l dups s.
Proof.
  intros ft own. induction lines as [|line r IH]; intros num l dups s; [reflexivity|].
  unfold items in *. cbn [loadLines map numbered]. rewrite run_tokens.
  destruct (loadTokens ft own num line (getlines 32 line) l dups s) as [v| | |]; [|reflexivity..].
  cbn [obind]. destruct v as [s' [l' d']|s' e]; [apply IH|reflexivity].
Qed.
Lemma items_words : forall lines num, map word_of (items num lines) = flat_map (getlines 32) lines.
Proof.
  unfold items. induction lines as [|l r IH]; intro num; [reflexivity|]. cbn [map numbered flat_map].
  rewrite map_app, map_map, IH. f_equal. unfold word_of. cbn [snd]. apply map_id.
Qed.

Record loop_inv (ft : FileType) (own : bool) (s0 : sset) (done : list item) (l : ListFile) (dups : list bytes) (s : sset) : Prop := {
  li_list : list_inv l;
  li_set : forall w, In w s <-> In w s0 \/ In w (listOf l);
  li_kept : listOf l = filter (fun w => negb (sset_has w s0)) (map word_of done);
  li_dups : dups = filter (fun w => sset_has w s0) (map word_of done);
  li_own : own = false -> dups = [];
  li_ok : Forall (tok_ok ft) done
}.
Lemma run_spec : forall ft own s0 xs done l dups s, Forall (fun x => bytes_ok (word_of x)) xs ->
  loop_inv ft own s0 done l dups s ->
  exists v, run ft own xs l dups s = Val v /\
  match v with
  | Done s' (l', dups') => loop_inv ft own s0 (done ++ xs) l' dups' s'
  | Failed s' e => exists mid x rest, xs = mid ++ x :: rest /\ refused ft own s0 (done ++ mid) x e
      /\ (forall w, In w s' <-> In w s0 \/ In w (map word_of (done ++ mid)) \/ (e = TooManyEntries /\ w = word_of x))
      /\ Forall (tok_ok ft) (done ++ mid)
      /\ NoDup (filter (fun w => negb (sset_has w s0)) (map word_of (done ++ mid)))
      /\ (own = false -> forall w, In w (map word_of (done ++ mid)) -> ~ In w s0)
  end.
Proof.
  intros ft own s0. induction xs as [|[[num line] t] xs IH]; intros done l dups s Hok Hinv.
  - exists (Done s (l, dups)). split; [reflexivity|]. rewrite app_nil_r. exact Hinv.
  - cbn [run]. inversion Hok as [|? ? Ht Hok']; subst. unfold word_of in Ht. cbn [snd] in Ht.
    destruct Hinv as [Hl Hs Hk Hd Ho Hf].
    assert (Hset : forall w, In w s <-> In w s0 \/ In w (map word_of done)).
    { intro w. rewrite Hs, Hk, filter_In, negb_true_iff, sset_has_not.
      destruct (in_dec bytes_eq_dec w s0); intuition. }
    assert (Hfresh : own = false -> forall w, In w (map word_of done) -> ~ In w s0).
    { intros E w Hw Hin. specialize (Ho E). rewrite Hd in Ho.
      assert (In w (filter (fun w => sset_has w s0) (map word_of done))) as K
        by (apply filter_In; split; [exact Hw|apply sset_has_in; exact Hin]).
      rewrite Ho in K. destruct K. }
    assert (Hnd : NoDup (filter (fun w => negb (sset_has w s0)) (map word_of done)))
      by (rewrite <- Hk; apply Hl).
    destruct (match ft with OnePerLine => negb (beq t line) | MultiplePerLine => false end) eqn:E1.
    { exists (Failed s (MultipleTokens num)). split; [reflexivity|].
      exists [], (num, line, t), xs. rewrite app_nil_r. split; [reflexivity|]. split.
      - cbn. destruct ft; [discriminate|]. apply negb_true_iff, beq_neq in E1. auto.
      - split; [|auto]. intro w. rewrite Hset. intuition discriminate. }
    unfold validate. destruct (valid_token t Ht) as [b [-> Hb]]. cbn [obind].
    destruct b; cbn [negb].
    2:{ exists (Failed s (InvalidToken num t)). split; [reflexivity|].
        exists [], (num, line, t), xs. rewrite app_nil_r. split; [reflexivity|]. split.
        - cbn. split; [reflexivity|]. split; [reflexivity|]. intro K. apply Hb in K. discriminate.
        - split; [|auto]. intro w. rewrite Hset. intuition discriminate. }
    assert (Hmb : mb_char t) by (apply Hb; reflexivity).
    assert (Htok : tok_ok ft (num, line, t)).
    { split; [exact Hmb|]. intros ->. apply negb_false_iff, beq_eq in E1. exact E1. }
    destruct (mfind t (indexOf l)) as [i|] eqn:Em.
    { exists (Failed s (DuplicateToken num t)). split; [reflexivity|].
      exists [], (num, line, t), xs. rewrite app_nil_r. split; [reflexivity|]. split.
      - assert (In t (listOf l)) as K.
        { destruct (in_dec bytes_eq_dec t (listOf l)) as [H|H]; [exact H|].
          apply (list_inv_find l t Hl) in H. congruence. }
        rewrite Hk, filter_In, negb_true_iff, sset_has_not in K. cbn. intuition.
      - split; [|auto]. intro w. rewrite Hset. intuition discriminate. }
    apply (list_inv_find l t Hl) in Em.
    unfold sset_insert. destruct (sset_has t s) eqn:Eh.
    + apply sset_has_in in Eh. assert (Hin : In t s0) by (apply Hs in Eh; destruct Eh; [assumption|contradiction]).
      destruct own; cbn [negb obind].
      * (* typed list: goes to the duplicates *)
        assert (Hinv' : loop_inv ft true s0 (done ++ [(num, line, t)]) l (dups ++ [t]) s).
        { constructor; auto.
          - rewrite map_app, filter_app, <- Hk. cbn [map filter]. unfold word_of at 1. cbn [snd].
            rewrite (proj2 (sset_has_in t s0) Hin). cbn [negb]. rewrite app_nil_r. reflexivity.
          - rewrite map_app, filter_app, <- Hd. cbn [map filter]. unfold word_of at 1. cbn [snd].
            rewrite (proj2 (sset_has_in t s0) Hin). reflexivity.
          - discriminate.
          - apply Forall_app. split; [exact Hf|]. constructor; [exact Htok|constructor]. }
        destruct (IH _ _ _ _ Hok' Hinv') as [v [Hv K]]. exists v. split; [exact Hv|].
        destruct v as [s' [l' d']|s' e].
        -- rewrite <- app_assoc in K. exact K.
        -- destruct K as [mid [x [rest [-> [K1 [K2 [K3 [K4 K5]]]]]]]].
           rewrite <- app_assoc in K1, K2, K3, K4, K5. cbn [app] in *.
           exists ((num, line, t) :: mid), x, rest. auto 10.
      * exists (Failed s (NonUnique num t)). split; [reflexivity|].
        exists [], (num, line, t), xs. rewrite app_nil_r. split; [reflexivity|]. split.
        -- cbn. auto.
        -- split; [|auto]. intro w. rewrite Hset. intuition discriminate.
    + apply sset_has_not in Eh. assert (Hnin : ~ In t s0) by (intro H; apply Eh, Hs; left; exact H).
      replace (if own then Val (Done (t :: s) true) else if negb true then Val (Failed (t :: s) (NonUnique num t)) else Val (Done (t :: s) true))
        with (Val (Done (t :: s) true)) by (destruct own; reflexivity).
      cbn [obind]. pose proof (addEntry_spec l t Hl Em) as Ha.
      destruct (addEntry t l) as [l'|].
      * destruct Ha as [Hlt [Hl' El']].
        assert (Hinv' : loop_inv ft own s0 (done ++ [(num, line, t)]) l' dups (t :: s)).
        { constructor; auto.
          - intro w. rewrite El', in_app_iff. cbn [In]. rewrite Hs. intuition.
          - rewrite El', map_app, filter_app, <- Hk. cbn [map filter]. unfold word_of at 1. cbn [snd].
            rewrite (proj2 (sset_has_not t s0) Hnin). reflexivity.
          - rewrite map_app, filter_app, <- Hd. cbn [map filter]. unfold word_of at 1. cbn [snd].
            rewrite (proj2 (sset_has_not t s0) Hnin). rewrite app_nil_r. reflexivity.
          - apply Forall_app. split; [exact Hf|]. constructor; [exact Htok|constructor]. }
        destruct (IH _ _ _ _ Hok' Hinv') as [v [Hv K]]. exists v. split; [exact Hv|].
        destruct v as [s' [l'' d']|s' e].
        -- rewrite <- app_assoc in K. exact K.
        -- destruct K as [mid [x [rest [-> [K1 [K2 [K3 [K4 K5]]]]]]]].
           rewrite <- app_assoc in K1, K2, K3, K4, K5. cbn [app] in *.
           exists ((num, line, t) :: mid), x, rest. auto 10.
      * exists (Failed (t :: s) TooManyEntries). split; [reflexivity|].
        exists [], (num, line, t), xs. rewrite app_nil_r. split; [reflexivity|]. split.
        -- cbn. split; [exact Hnin|]. rewrite Hk in Ha. exact Ha.
        -- split; [|auto]. intro w. cbn [In word_of snd]. rewrite Hset. intuition.
Qed.

Lemma loop_start : forall ft own s0, loop_inv ft own s0 [] emptyList [] s0.
Proof.
  intros. constructor; try reflexivity; try constructor; try apply list_inv_empty; try tauto.
  intros [H|[]]. exact H.
Qed.
Lemma items_ok : forall c n, bytes_ok c -> Forall (fun x => bytes_ok (word_of x)) (items n (getlines 10 c)).
Proof.
  intros c n H. apply Forall_map with (f := word_of) (P := bytes_ok). rewrite items_words.
  apply Forall_flat_map. assert (H' : Forall bytes_ok (getlines 10 c)) by (apply getlines_generic_ok; [exact H|constructor]).
  eapply Forall_impl; [|exact H']. intros l Hl. apply getlines_generic_ok; [exact Hl|constructor].
Qed.

Lemma filter_all : forall (A : Type) (f : A -> bool) l, (forall x, In x l -> f x = true) -> filter f l = l.
Proof.
  intros A f. induction l as [|a l IH]; intro H; [reflexivity|]. cbn [filter].
  rewrite (H a (or_introl eq_refl)). f_equal. apply IH. intros x Hx. apply H. right. exact Hx.
Qed.
Lemma filter_none : forall (A : Type) (f : A -> bool) l, filter f l = [] -> forall x, In x l -> f x = false.
Proof.
  intros A f l H x Hx. destruct (f x) eqn:E; [|reflexivity].
  assert (In x (filter f l)) as K by (apply filter_In; auto). rewrite H in K. destruct K.
Qed.

Lemma lines_tok_ok : forall ft ls num, Forall (tok_ok ft) (numbered num ls) <->
  Forall mb_char (flat_map snd ls) /\ (oneb ft = true -> Forall (fun lw => Forall (eq (fst lw)) (snd lw)) ls).
Proof.
  intros ft. induction ls as [|[l ws] ls IH]; intro num; cbn [numbered flat_map snd].
  - split; intros; [split|]; constructor.
  - rewrite !Forall_app, IH, Forall_map. unfold tok_ok. cbn [word_of snd fst].
    assert (Hft : forall t, (ft = OnePerLine -> t = l) <-> (oneb ft = true -> l = t)).
    { intro t. destruct ft; cbn; split; intros H K; try discriminate; symmetry; apply H; reflexivity. }
    split.
    + intros [H [H2 H3]]. split; [split; [|exact H2]|].
      * eapply Forall_impl; [|exact H]. cbn. tauto.
      * intro E. constructor; [|apply H3; exact E]. cbn [fst snd].
        eapply Forall_impl; [|exact H]. cbn. intros t [_ K]. apply Hft in K; [exact K|exact E].
    + intros [[H1 H2] H3]. split; [|split; [exact H2|]].
      * apply Forall_forall. intros t Ht. rewrite Forall_forall in H1. split; [apply H1; exact Ht|].
        apply Hft. intro E. specialize (H3 E). inversion H3 as [|? ? K _]; subst. cbn [fst snd] in K.
        rewrite Forall_forall in K. apply K. exact Ht.
      * intro E. specialize (H3 E). inversion H3; assumption.
Qed.
Lemma numbered_words : forall ls num, map word_of (numbered num ls) = flat_map snd ls.
Proof.
  induction ls as [|[l ws] r IH]; intro num; [reflexivity|]. cbn [numbered flat_map snd].
  rewrite map_app, map_map, IH. f_equal. unfold word_of. cbn [snd]. apply map_id.
Qed.

Lemma in_split_nodup : forall (A : Type) (a b : list A) x, NoDup (a ++ x :: b) -> ~ In x a.
Proof. intros A a b x H Hin. apply NoDup_remove_2 in H. apply H, in_or_app. left. exact Hin. Qed.

Lemma load_spec : forall ft own c taken ls, bytes_ok c -> file_words c ls ->
  let ws := flat_map snd ls in
  (good_file (oneb ft) taken ls /\ exists s l, load ft own c taken = Val (Done s l)
     /\ listOf l = ws /\ list_inv l /\ (forall w, In w s <-> In w taken \/ In w ws))
  \/ (~ good_file (oneb ft) taken ls /\ exists s e, load ft own c taken = Val (Failed s e)
     /\ ((own = true /\ Forall (tok_ok ft) (numbered 1 ls) /\ e = Duplicates (filter (fun w => existsb (beq w) taken) ws)
          /\ NoDup (filter (fun w => negb (existsb (beq w) taken)) ws)
          /\ (exists w, In w ws /\ In w taken)
          /\ (forall w, In w s <-> In w taken \/ In w ws))
         \/ exists before x rest, numbered 1 ls = before ++ x :: rest
              /\ Forall (tok_ok ft) before
              /\ NoDup (filter (fun w => negb (existsb (beq w) taken)) (map word_of before))
              /\ (own = false -> forall w, In w (map word_of before) -> ~ In w taken)
              /\ refused ft own taken before x e
              /\ forall w, In w s <-> In w taken \/ In w (map word_of before)
                                      \/ (e = TooManyEntries /\ w = word_of x))).
Proof.
  intros ft own c taken ls Hc Hls ws. apply file_words_fun in Hls.
  unfold load. rewrite run_lines.
  destruct (run_spec ft own taken _ [] _ _ _ (items_ok c 1 Hc) (loop_start ft own taken)) as [v [Hv K]].
  rewrite Hv. cbn [obind app] in *. unfold items in *. rewrite <- Hls in *.
  assert (Hws : map word_of (numbered 1 ls) = ws) by apply numbered_words.
  destruct v as [s [l d]|s e].
  - destruct K as [K1 K2 K3 K4 K5 K6]. rewrite Hws in *.
    assert (Hset : forall w, In w s <-> In w taken \/ In w ws).
    { intro w. rewrite K2, K3, filter_In, negb_true_iff, sset_has_not.
      destruct (in_dec bytes_eq_dec w taken); intuition. }
    destruct (lines_tok_ok ft ls 1) as [Hlines _]. specialize (Hlines K6). destruct Hlines as [HL1 HL2].
    destruct d as [|d0 d].
    + left. assert (Hno : forall w, In w ws -> ~ In w taken).
      { intros w Hw. apply sset_has_not. exact (filter_none _ _ _ (eq_sym K4) w Hw). }
      assert (Hl : listOf l = ws).
      { rewrite K3. apply filter_all. intros w Hw. apply negb_true_iff, sset_has_not. apply Hno. exact Hw. }
      split.
      * unfold good_file. fold ws. split; [exact HL2|]. split; [exact HL1|].
        destruct K1 as [_ [Hn [Hle _]]]. rewrite Hl in *. auto.
      * exists s, l. auto.
    + right. assert (Hex : exists w, In w ws /\ In w taken).
      { exists d0. assert (In d0 (d0 :: d)) as Hin by (left; reflexivity). rewrite K4 in Hin.
        apply filter_In in Hin. destruct Hin as [H1 H2]. apply sset_has_in in H2. auto. }
      split.
      * intros [_ [_ [_ [H _]]]]. destruct Hex as [w [H1 H2]]. exact (H w H1 H2).
      * exists s, (Duplicates (d0 :: d)). split; [reflexivity|]. left.
        split; [destruct own; [reflexivity|]; specialize (K5 eq_refl); discriminate|].
        split; [exact K6|]. split; [rewrite K4; reflexivity|].
        split; [|auto]. destruct K1 as [_ [Hn _]]. rewrite K3 in Hn. exact Hn.
  - right. destruct K as [mid [x [rest [E [K1 [K2 [K3 [K4 K5]]]]]]]]. split.
    + intros [H1 [H2 [H3 [H4 H5]]]]. fold ws in H2, H3, H4, H5. rewrite <- Hws, E, map_app in *. cbn [map] in *.
      assert (Hx : In (word_of x) (map word_of mid ++ word_of x :: map word_of rest))
        by (apply in_or_app; right; left; reflexivity).
      assert (Hall : Forall (tok_ok ft) (numbered 1 ls)).
      { apply lines_tok_ok. split; [|exact H1]. rewrite <- (numbered_words ls 1), E, map_app. exact H2. }
      assert (Hxok : tok_ok ft x).
      { rewrite Forall_forall in Hall. apply Hall. rewrite E. apply in_or_app. right. left. reflexivity. }
      destruct x as [[num line] t]. unfold refused, tok_ok in *. cbn [word_of snd fst] in *.
      destruct e as [n|n t'|n t'|n t'| |tks].
      * destruct K1 as [_ [Hft Hne]]. apply Hne. apply Hxok. exact Hft.
      * destruct K1 as [_ [_ Hne]]. apply Hne. apply Hxok.
      * destruct K1 as [_ [_ [Hin _]]]. exact (in_split_nodup _ _ _ _ H3 Hin).
      * destruct K1 as [_ [_ [_ Hin]]]. exact (H4 t Hx Hin).
      * destruct K1 as [_ Hlen]. rewrite filter_all in Hlen.
        -- rewrite len_app, len_cons, Hlen in H5. unfold MaxEntries in H5. lia.
        -- intros w Hw. apply negb_true_iff. apply (sset_has_not w taken). apply H4. apply in_or_app. left. exact Hw.
      * exact K1.
    + exists s, e. split; [reflexivity|]. right. exists mid, x, rest. repeat (split; [assumption|]).
      exact K2.
Qed.

Lemma getIndex_spec : forall l, list_inv l ->
  (forall i w, nth_error (listOf l) i = Some w -> getIndex l w = N.of_nat i + 1)
  /\ (forall w, ~ In w (listOf l) -> getIndex l w = 0)
  /\ (forall w, list_exists l w = true <-> In w (listOf l)).
Proof.
  intros l H. unfold getIndex, list_exists. split; [|split].
  - intros i w Hi. destruct H as [_ [_ [_ H]]]. rewrite (proj2 (H w (N.of_nat i + 1))); [reflexivity|].
    exists i. auto.
  - intros w Hw. rewrite (proj2 (list_inv_find l w H) Hw). reflexivity.
  - intro w. pose proof (list_inv_find l w H) as K. destruct (mfind w (indexOf l)).
    + split; [|reflexivity]. intros _. destruct (in_dec bytes_eq_dec w (listOf l)) as [Hi|Hi]; [exact Hi|]. apply K in Hi. discriminate.
    + split; [discriminate|]. intro Hi. exfalso. apply K; [reflexivity|exact Hi].
Qed.

(** ** Histories *)
Lemma kind_eqb_eq : forall a b, kind_eqb a b = true <-> a = b.
Proof. intros [] []; cbn; split; congruence. Qed.
Lemma kind_eqb_refl : forall a, kind_eqb a a = true.
Proof. intros []; reflexivity. Qed.
Lemma construct_load : forall k ft c st,
  construct k ft c st =
  (v <- load (kind_type k ft) (negb (kind_eqb k PlainList)) c (uniqueOf st k) ;;
   match v with
   | Done s l => Val (setUnique st k s, inl l)
   | Failed s e => Val (setUnique st k s, inr e)
   end).
Proof. intros [] ft c st; reflexivity. Qed.

(** names are only added to the set of the list's own kind *)
Lemma construct_spec : forall k ft c st, bytes_ok c ->
  exists st' r, construct k ft c st = Val (st', r)
  /\ (forall k', k' <> k -> uniqueOf st' k' = uniqueOf st k')
  /\ (forall w, In w (uniqueOf st k) -> In w (uniqueOf st' k))
  /\ (forall l, r = inl l -> forall w, In w (listOf l) -> In w (uniqueOf st' k) /\ ~ In w (uniqueOf st k))
  /\ (k <> PlainList -> registered st' k = true)
  /\ (forall k', registered st k' = true -> registered st' k' = true).
Proof.
  intros k ft c st Hc. rewrite construct_load.
  assert (Hls : file_words c (map (fun l => (l, getlines 32 l)) (getlines 10 c))) by (apply file_words_fun; reflexivity).
  assert (Hsame : forall s k', k' <> k -> uniqueOf (setUnique st k s) k' = uniqueOf st k').
  { intros s k' H. cbn. destruct (kind_eqb k' k) eqn:E; [apply kind_eqb_eq in E; contradiction|reflexivity]. }
  assert (Hset : forall s, uniqueOf (setUnique st k s) k = s) by (intro; cbn; rewrite kind_eqb_refl; reflexivity).
  assert (Hreg : forall s, k <> PlainList -> registered (setUnique st k s) k = true).
  { intros s H. cbn. destruct k; [congruence|reflexivity..]. }
  assert (Hreg2 : forall s k', registered st k' = true -> registered (setUnique st k s) k' = true).
  { intros s k' H. cbn. rewrite H, orb_true_r. destruct k; reflexivity. }
  destruct (load_spec (kind_type k ft) (negb (kind_eqb k PlainList)) c (uniqueOf st k) _ Hc Hls)
    as [[Hg [s [l [-> [El [_ Hs]]]]]]|[_ [s [e [-> He]]]]]; cbn [obind].
  - exists (setUnique st k s), (inl l). rewrite !Hset. split; [reflexivity|]. split; [auto|]. split.
    + intros w H. apply Hs. left. exact H.
    + split; [|auto]. intros l' E w Hw. inversion E; subst l'. rewrite El in Hw. split; [apply Hs; right; exact Hw|].
      destruct Hg as [_ [_ [_ [Hno _]]]]. apply Hno. exact Hw.
  - exists (setUnique st k s), (inr e). rewrite !Hset. split; [reflexivity|]. split; [auto|]. split.
    + intros w H. destruct He as [[_ [_ [_ [_ [_ Hs]]]]]|[b [x [r [_ [_ [_ [_ [_ Hs]]]]]]]]]; apply Hs; left; exact H.
    + split; [intros l' E; discriminate|auto].
Qed.

Lemma list_run_total : forall ops st, Forall op_ok ops -> exists st' rs, list_run ops st = Val (st', rs).
Proof.
  induction ops as [|o ops IH]; intros st H; [eexists; eexists; reflexivity|].
  inversion H as [|? ? Ho H']; subst. destruct o as [k ft c|]; cbn [list_run].
  - destruct (construct_spec k ft c st Ho) as [st1 [r [-> _]]]. cbn [obind].
    destruct (IH st1 H') as [st2 [rs ->]]. cbn [obind]. eexists. eexists. reflexivity.
  - apply IH. exact H'.
Qed.

Lemma list_run_apart : forall ops st st' rs, Forall op_ok ops -> Forall no_clear ops ->
  list_run ops st = Val (st', rs) ->
  ForallOrdPairs apart rs
  /\ Forall (fun r => forall l, snd r = inl l -> forall w, In w (listOf l) -> ~ In w (uniqueOf st (fst r))) rs.
Proof.
  induction ops as [|o ops IH]; intros st st' rs H Hc E.
  - inversion E; subst. split; constructor.
  - inversion H as [|? ? Ho H']; subst. inversion Hc as [|? ? Hn Hc']; subst.
    destruct o as [k ft c|]; [|destruct Hn]. cbn [list_run] in E.
    destruct (construct_spec k ft c st Ho) as [st1 [r [Er [Hsame [Hmono [Hnew _]]]]]]. rewrite Er in E. cbn [obind] in E.
    destruct (list_run_total ops st1 H') as [st2 [rs' Ers]]. rewrite Ers in E. cbn [obind] in E.
    inversion E; subst st' rs. destruct (IH _ _ _ H' Hc' Ers) as [I1 I2]. split.
    + constructor; [|exact I1]. rewrite Forall_forall in I2 |- *. intros [k2 r2] Hin la lb E1 E2 E3 w Hw Hw2.
      cbn [fst snd] in *. subst k2. specialize (I2 _ Hin lb E3 w Hw2). cbn [fst] in I2. apply I2.
      apply (Hnew la E2 w Hw).
    + constructor.
      * cbn [fst snd]. intros l El w Hw. apply (Hnew l El w Hw).
      * rewrite Forall_forall in I2 |- *. intros [k2 r2] Hin l El w Hw Hin2.
        apply (I2 _ Hin l El w Hw). cbn [fst] in *. destruct (kind_eqb k2 k) eqn:Ek.
        -- apply kind_eqb_eq in Ek. subst k2. apply Hmono. exact Hin2.
        -- rewrite Hsame; [exact Hin2|]. intros ->. rewrite kind_eqb_refl in Ek. discriminate.
Qed.

(** every set with names in it is known to clearUniqueCheckData *)
Definition static_ok (st : list_static) : Prop :=
  forall k, k <> PlainList -> registered st k = false -> uniqueOf st k = [].
Lemma construct_static_ok : forall k ft c st st' r, bytes_ok c -> static_ok st ->
  construct k ft c st = Val (st', r) -> static_ok st'.
Proof.
  intros k ft c st st' r Hc Hok E.
  destruct (construct_spec k ft c st Hc) as [st1 [r1 [E1 [Hsame [_ [_ [Hreg Hreg2]]]]]]].
  rewrite E in E1. inversion E1; subst st1 r1. intros k2 Hk2 Hr.
  destruct (kind_eqb k2 k) eqn:Ek.
  - apply kind_eqb_eq in Ek. subst k2. rewrite Hreg in Hr by exact Hk2. discriminate.
  - rewrite Hsame by (intros ->; rewrite kind_eqb_refl in Ek; discriminate).
    apply Hok; [exact Hk2|]. destruct (registered st k2) eqn:E2; [|reflexivity].
    rewrite (Hreg2 _ E2) in Hr. discriminate.
Qed.
Lemma clear_static_ok : forall st, static_ok st -> static_ok (clearUnique st).
Proof. intros st H k Hk Hr. cbn in *. destruct k; [reflexivity|..]; rewrite Hr; apply H; assumption. Qed.
Lemma list_run_static_ok : forall ops st st' rs, Forall op_ok ops -> static_ok st ->
  list_run ops st = Val (st', rs) -> static_ok st'.
Proof.
  induction ops as [|o ops IH]; intros st st' rs H Hok E.
  - inversion E; subst. exact Hok.
  - inversion H as [|? ? Ho H']; subst. destruct o as [k ft c|]; cbn [list_run] in E.
    + destruct (construct_spec k ft c st Ho) as [st1 [r [Er _]]]. rewrite Er in E. cbn [obind] in E.
      destruct (list_run_total ops st1 H') as [st2 [rs' Ers]]. rewrite Ers in E. cbn [obind] in E.
      inversion E; subst. eapply IH; [exact H'| |exact Ers]. eapply construct_static_ok; eassumption.
    + eapply IH; [exact H'| |exact E]. apply clear_static_ok. exact Hok.
Qed.
Lemma clear_empties : forall st k, static_ok st -> uniqueOf (clearUnique st) k = [].
Proof.
  intros st k H. cbn. destruct k; [reflexivity|..];
    destruct (registered st _) eqn:E; try reflexivity; apply H; congruence.
Qed.
Lemma init_static_ok : static_ok initStatic.
Proof. intros k _ _. reflexivity. Qed.

Lemma construct_success : forall k ft c st ls, bytes_ok c -> file_words c ls ->
  ((exists st' l, construct k ft c st = Val (st', inl l)) <-> good_file (oneb (kind_type k ft)) (uniqueOf st k) ls).
Proof.
  intros k ft c st ls Hc Hls. rewrite construct_load.
  destruct (load_spec (kind_type k ft) (negb (kind_eqb k PlainList)) c (uniqueOf st k) _ Hc Hls)
    as [[Hg [s [l [-> _]]]]|[Hg [s [e [-> _]]]]]; cbn [obind].
  - split; [intros _; exact Hg|intros _; eexists; eexists; reflexivity].
  - split; [intros [st' [l E]]; discriminate|intro H; contradiction].
Qed.

Lemma after_clear : forall ops k ft c ls st rs, Forall op_ok ops -> bytes_ok c -> file_words c ls ->
  list_run ops initStatic = Val (st, rs) ->
  ((exists st' l, construct k ft c (clearUnique st) = Val (st', inl l))
   <-> good_file (oneb (kind_type k ft)) [] ls).
Proof.
  intros ops k ft c ls st rs Hops Hc Hls E.
  rewrite (construct_success k ft c _ ls Hc Hls).
  rewrite clear_empties; [reflexivity|]. eapply list_run_static_ok; [exact Hops|apply init_static_ok|exact E].
Qed.

Lemma good_file_ext : forall b t1 t2 ls, (forall w, In w t1 <-> In w t2) -> good_file b t1 ls -> good_file b t2 ls.
Proof.
  intros b t1 t2 ls H [G1 [G2 [G3 [G4 G5]]]]. unfold good_file. repeat (split; [assumption|]).
  split; [|exact G5]. intros w Hw Hin. apply (G4 w Hw). apply H. exact Hin.
Qed.
(** the words in front of the refused one stay taken *)
Lemma after_failure : forall k ft c st st1 e ls ft2 c2 ls2, bytes_ok c -> file_words c ls ->
  construct k ft c st = Val (st1, inr e) -> bytes_ok c2 -> file_words c2 ls2 ->
  exists left rest, flat_map snd ls = left ++ rest
  /\ ((exists st2 l, construct k ft2 c2 st1 = Val (st2, inl l))
      <-> good_file (oneb (kind_type k ft2)) (left ++ uniqueOf st k) ls2)
  /\ match e with Duplicates _ => rest = [] | _ => rest <> [] \/ e = TooManyEntries end.
Proof.
  intros k ft c st st1 e ls ft2 c2 ls2 Hc Hls E Hc2 Hls2. rewrite construct_load in E.
  destruct (load_spec (kind_type k ft) (negb (kind_eqb k PlainList)) c (uniqueOf st k) _ Hc Hls)
    as [[Hg [s [l [El _]]]]|[Hg [s [e' [Ef He]]]]].
  - rewrite El in E. discriminate.
  - rewrite Ef in E. cbn [obind] in E. inversion E; subst st1 e'. clear E.
    assert (Hu : uniqueOf (setUnique st k s) k = s) by (cbn; rewrite kind_eqb_refl; reflexivity).
    assert (Hiff : forall left, (forall w, In w s <-> In w (uniqueOf st k) \/ In w left) ->
       ((exists st2 l, construct k ft2 c2 (setUnique st k s) = Val (st2, inl l))
      <-> good_file (oneb (kind_type k ft2)) (left ++ uniqueOf st k) ls2)).
    { intros left Hleft. rewrite (construct_success k ft2 c2 _ ls2 Hc2 Hls2), Hu.
      split; apply good_file_ext; intro w; rewrite in_app_iff, Hleft; tauto. }
    destruct He as [[_ [_ [-> [_ [_ Hs]]]]]|[b [x [r [Eb [_ [_ [_ [Href Hs]]]]]]]]].
    + exists (flat_map snd ls), []. rewrite app_nil_r. split; [reflexivity|]. split; [|reflexivity].
      apply Hiff. exact Hs.
    + assert (Ew : flat_map snd ls = map word_of b ++ word_of x :: map word_of r).
      { rewrite <- (numbered_words ls 1), Eb, map_app. reflexivity. }
      assert (Hd : e = TooManyEntries \/ e <> TooManyEntries) by (destruct e; auto; right; discriminate).
      destruct Hd as [->|Hne].
      * exists (map word_of b ++ [word_of x]), (map word_of r). rewrite <- app_assoc. cbn [app].
        split; [exact Ew|]. split; [|right; reflexivity]. apply Hiff. intro w. rewrite Hs, in_app_iff. cbn [In].
        intuition.
      * exists (map word_of b), (word_of x :: map word_of r). split; [exact Ew|]. split.
        -- apply Hiff. intro w. rewrite Hs. intuition.
        -- destruct e; try (left; discriminate). destruct x as [[? ?] ?]; destruct Href.
Qed.
