(** Lemmas about the messages about the words of lists. *)
From Verif Require Import BaseFacts StringModel StringSpec StringProofs ColumnFileProofs ListProofs DirPaths ErrArgsProps ErrListSpec ErrListProofs.
From Verif Require Import ErrBase.
From Verif Require Import ListModel ListSpec ListProofs.
Open Scope N_scope.
Arguments N.mul : simpl never.
Arguments N.add : simpl never.
Arguments N.sub : simpl never.

Lemma run_app : forall ft own a b l d s, run ft own (a ++ b) l d s
  = (v <- run ft own a l d s ;; match v with Done s' (l', d') => run ft own b l' d' s' | Failed s' e => Val (Failed s' e) end).
Proof.
  intros ft own a b. induction a as [|[[num line] t] a IH]; intros l d s; [reflexivity|]. cbn [app run].
  destruct (match ft with OnePerLine => negb (beq t line) | MultiplePerLine => false end); [reflexivity|].
  destruct (validate own num t l s) as [[s' [|]|s' e]|e| |]; cbn [obind]; try reflexivity; [|apply IH]. destruct (addEntry t l); [apply IH|reflexivity].
Qed.
Lemma new_words_app : forall taken a b, new_words taken (a ++ b) = new_words taken a ++ new_words taken b.
Proof. intros taken a b. unfold new_words. rewrite map_app, filter_app. reflexivity. Qed.
Lemma new_words_one : forall taken num line t, ~ In t taken -> new_words taken [(num, line, t)] = [t].
Proof. intros taken num line t H. unfold new_words, word_of. cbn [map filter snd]. change (existsb (beq t) taken) with (sset_has t taken). rewrite (proj2 (sset_has_not t taken) H). reflexivity. Qed.
Lemma new_words_old : forall taken num line t, In t taken -> new_words taken [(num, line, t)] = [].
Proof. intros taken num line t H. unfold new_words, word_of. cbn [map filter snd]. change (existsb (beq t) taken) with (sset_has t taken). rewrite (proj2 (sset_has_in t taken) H). reflexivity. Qed.
Lemma in_new_words : forall taken a w, In w (new_words taken a) <-> In w (map word_of a) /\ ~ In w taken.
Proof. intros taken a w. unfold new_words. rewrite filter_In, negb_true_iff. change (existsb (beq w) taken) with (sset_has w taken). rewrite sset_has_not. tauto. Qed.

Lemma NoDup_snoc : forall (l : list bytes) x, NoDup l -> ~ In x l -> NoDup (l ++ [x]).
Proof. intros l x H Hx. apply NoDup_rev in H. rewrite <- (rev_involutive (l ++ [x])). apply NoDup_rev. rewrite rev_app_distr. constructor; [rewrite <- in_rev; exact Hx|exact H]. Qed.

Section Run.
Variables (ft : FileType) (own : bool) (taken : list bytes).
Lemma accepted_run : forall xs, Forall (fun x => bytes_ok (word_of x)) xs -> accepted ft own taken xs ->
  exists l d s, run ft own xs emptyList [] taken = Val (Done s (l, d)) /\ loop_inv ft own taken xs l d s.
Proof.
  intros xs Hok (A1 & A2 & A3 & A4). destruct (run_spec ft own taken xs [] emptyList [] taken Hok (loop_start ft own taken)) as (v & Hv & K).
  destruct v as [s [l d]|s e]; [exists l, d, s; split; [exact Hv|exact K]|]. exfalso. clear Hv. cbn [app] in K. destruct K as (mid & [[num line] t] & rest & E & R & _). subst xs.
  assert (Hx : tok_ok ft (num, line, t)) by (rewrite Forall_forall in A1; apply A1; apply in_or_app; right; left; reflexivity).
  assert (Hin : In t (map word_of (mid ++ (num, line, t) :: rest))) by (rewrite map_app; apply in_or_app; right; left; reflexivity).
  change ((num, line, t) :: rest) with ([(num, line, t)] ++ rest) in A2, A4. rewrite !new_words_app in A2, A4.
  destruct Hx as [X1 X2]. unfold word_of in X1, X2. cbn [fst snd] in X1, X2. destruct e as [n|n t'|n t'|n t'| |ts]; cbn [refused] in R.
  - destruct R as (_ & F & Ne). apply Ne. exact (X2 F).
  - destruct R as (_ & _ & Ne). contradiction.
  - destruct R as (_ & _ & I & Nt). rewrite new_words_one in A2 by exact Nt. apply NoDup_remove_2 in A2. apply A2. apply in_or_app. left. apply in_new_words. auto.
  - destruct R as (_ & _ & Ow & I). exact (A3 Ow t Hin I).
  - destruct R as (Nt & Hl). rewrite new_words_one in A4 by exact Nt. unfold new_words at 1 in A4. rewrite !len_app, Hl, len_cons in A4. lia.
  - exact R.
Qed.
Lemma fault_step : forall before x w rest l d s, bytes_ok (word_of x) -> loop_inv ft own taken before l d s -> fault ft own taken before x w ->
  exists s' e, run ft own (x :: rest) l d s = Val (Failed s' e) /\ forall name file, errorText name file e = w ++ b_ ", file: " ++ file.
Proof.
  intros before x w rest l d s Hok [Hl Hs Hk Hd Ho Hf] F.
  assert (Wr : forall num n, written n num -> to_string num = n) by (intros num n W; exact (written_one _ _ _ (to_string_written num) W)).
  assert (Tok : forall num line t, tok_ok ft (num, line, t) -> match ft with OnePerLine => negb (beq t line) | MultiplePerLine => false end = false).
  { intros num line t [_ T]. destruct ft; [reflexivity|]. specialize (T eq_refl). unfold word_of in T. cbn [fst snd] in T. rewrite T, beq_refl. reflexivity. }
  assert (Val : forall num line t, bytes_ok t -> tok_ok ft (num, line, t) -> isValidMBUtf8 t true = Val true).
  { intros num line t O [T _]. destruct (valid_token t O) as [b [-> B]]. rewrite (proj2 B T). reflexivity. }
  assert (Fnd : forall t, In t (map word_of before) -> ~ In t taken -> exists i, mfind t (indexOf l) = Some i).
  { intros t I Nt. destruct (mfind t (indexOf l)) as [i|] eqn:E; [eauto|]. apply (list_inv_find l t Hl) in E. exfalso. apply E.
    rewrite Hk. apply filter_In. split; [exact I|]. apply negb_true_iff. apply sset_has_not. exact Nt. }
  assert (Nfd : forall t, ~ (In t (map word_of before) /\ ~ In t taken) -> mfind t (indexOf l) = None).
  { intros t H. apply (list_inv_find l t Hl). rewrite Hk, filter_In, negb_true_iff, sset_has_not. exact H. }
  destruct F as [num line t n Ft Ne W|num line t n Ft Nm W|num line t n T I Nt W|num line t n T I Ow W|num line t T Nt Nb Hn]; unfold word_of in Hok; cbn [snd] in Hok; cbn [run].
  - rewrite Ft. rewrite (proj2 (beq_neq t line) Ne). cbn [negb]. do 2 eexists. split; [reflexivity|]. intros name file. cbn [errorText]. unfold atLine. rewrite (Wr _ _ W), <- !app_assoc. reflexivity.
  - replace (match ft with OnePerLine => negb (beq t line) | MultiplePerLine => false end) with false.
    2:{ destruct ft; [reflexivity|]. rewrite (Ft eq_refl), beq_refl. reflexivity. }
    unfold validate. destruct (valid_token t Hok) as [b [-> B]]. destruct b; [exfalso; apply Nm; apply B; reflexivity|]. cbn [obind negb].
    do 2 eexists. split; [reflexivity|]. intros name file. cbn [errorText]. unfold atLine, quoted. rewrite (Wr _ _ W), <- !app_assoc. reflexivity.
  - rewrite (Tok _ _ _ T). unfold validate. rewrite (Val _ _ _ Hok T). cbn [obind negb]. destruct (Fnd t I Nt) as [i ->]. cbn [obind].
    do 2 eexists. split; [reflexivity|]. intros name file. cbn [errorText]. unfold atLine. rewrite (Wr _ _ W), <- !app_assoc. reflexivity.
  - rewrite (Tok _ _ _ T). unfold validate. rewrite (Val _ _ _ Hok T). cbn [obind negb]. rewrite Nfd by tauto.
    unfold sset_insert. assert (Is : In t s) by (apply Hs; left; exact I). rewrite (proj2 (sset_has_in t s) Is). rewrite Ow. cbn [obind negb].
    do 2 eexists. split; [reflexivity|]. intros name file. cbn [errorText]. unfold atLine, quoted. rewrite (Wr _ _ W), <- !app_assoc. reflexivity.
  - rewrite (Tok _ _ _ T). unfold validate. rewrite (Val _ _ _ Hok T). cbn [obind negb]. rewrite Nfd by tauto.
    unfold sset_insert. assert (Is : ~ In t s). { rewrite Hs, Hk, filter_In. tauto. } rewrite (proj2 (sset_has_not t s) Is).
    replace (if own then Base.Val (Done (t :: s) true) else if negb true then Base.Val (Failed (t :: s) (NonUnique num t)) else Base.Val (Done (t :: s) true))
        with (Base.Val (Done (t :: s) true)) by (destruct own; reflexivity).
    cbn [obind]. unfold addEntry. change (filter (fun w => negb (sset_has w taken)) (map word_of before)) with (new_words taken before) in Hk.
    rewrite Hk, Hn. change (65534 =? MaxEntries) with true. cbv iota. do 2 eexists. split; [reflexivity|]. intros name file. reflexivity.
Qed.
Lemma first_fault : forall xs, Forall (fun x => bytes_ok (word_of x)) xs ->
  accepted ft own taken xs \/ exists before x rest w, xs = before ++ x :: rest /\ accepted ft own taken before /\ fault ft own taken before x w.
Proof.
  intro xs. induction xs as [|[[num line] t] xs IH] using rev_ind; intro Hok.
  - left. repeat split; try constructor; [intros _ w []|]. unfold new_words, len. cbn. lia.
  - apply Forall_app in Hok. destruct Hok as [Hok Ht]. apply Forall_inv in Ht. unfold word_of in Ht. cbn [snd] in Ht.
    destruct (IH Hok) as [A|(b & x & r & w & -> & A & F)]; [|right; exists b, x, (r ++ [(num, line, t)]), w; rewrite <- app_assoc; auto].
    assert (Fail : forall w, fault ft own taken xs (num, line, t) w -> accepted ft own taken (xs ++ [(num, line, t)]) \/ exists before x rest w, xs ++ [(num, line, t)] = before ++ x :: rest /\ accepted ft own taken before /\ fault ft own taken before x w)
      by (intros w F; right; exists xs, (num, line, t), [], w; auto).
    pose proof (to_string_written num) as W.
    assert (L : (ft = OnePerLine /\ t <> line) \/ (ft = OnePerLine -> t = line)).
    { destruct ft; [right; discriminate|]. destruct (beq t line) eqn:E; [right; intros _; apply beq_eq; exact E|left; split; [reflexivity|apply beq_neq; exact E]]. }
    destruct L as [[L1 L2]|L]; [exact (Fail _ (ft_several ft own taken xs num line t _ L1 L2 W))|].
    destruct (valid_token t Ht) as [v [_ V]]. destruct v.
    2:{ apply (Fail _ (ft_invalid ft own taken xs num line t _ L (fun X => ltac:(apply V in X; discriminate X)) W)). }
    assert (T : tok_ok ft (num, line, t)) by (split; [apply V; reflexivity|exact L]).
    destruct A as (A1 & A2 & A3 & A4).
    assert (A1' : Forall (tok_ok ft) (xs ++ [(num, line, t)])) by (apply Forall_app; split; [exact A1|constructor; [exact T|constructor]]).
    destruct (in_dec bytes_eq_dec t taken) as [I|I].
    + destruct own eqn:Eo; [|exact (Fail _ (ft_taken ft false taken xs num line t _ T I eq_refl W))].
      left. split; [exact A1'|]. rewrite new_words_app, new_words_old, app_nil_r by exact I. split; [exact A2|]. split; [discriminate|exact A4].
    + destruct (in_dec bytes_eq_dec t (map word_of xs)) as [J|J]; [exact (Fail _ (ft_again ft own taken xs num line t _ T J I W))|].
      destruct (N.eq_dec (len (new_words taken xs)) 65534) as [E|E]; [exact (Fail _ (ft_full ft own taken xs num line t T I J E))|].
      left. split; [exact A1'|]. rewrite new_words_app, new_words_one by exact I. split; [|split].
      * apply NoDup_snoc; [exact A2|]. rewrite in_new_words. tauto.
      * intros Ow w Hw. rewrite map_app in Hw. apply in_app_or in Hw. destruct Hw as [Hw|[<-|[]]]; [exact (A3 Ow w Hw)|exact I].
      * rewrite len_app, len_cons, len_nil. lia.
Qed.
End Run.
Lemma load_fault : forall ft own taken c ls before x rest w, bytes_ok c -> file_words c ls -> numbered 1 ls = before ++ x :: rest ->
  accepted ft own taken before -> fault ft own taken before x w ->
  exists s e, load ft own c taken = Val (Failed s e) /\ forall name file, errorText name file e = w ++ b_ ", file: " ++ file.
Proof.
  intros ft own taken c ls before x rest w Hc Hls E A F. apply file_words_fun in Hls. pose proof (items_ok c 1 Hc) as Hok.
  unfold load. rewrite run_lines. unfold items in *. rewrite <- Hls in *. rewrite E in *. apply Forall_app in Hok. destruct Hok as [H1 H2]. inversion H2; subst.
  destruct (accepted_run ft own taken before H1 A) as (l & d & s & R & I). rewrite run_app, R. cbn [obind].
  destruct (fault_step ft own taken before x w rest l d s H3 I F) as (s' & e & R2 & T). rewrite R2. cbn [obind]. exists s', e. auto.
Qed.
Lemma load_accepted : forall ft own taken c ls, bytes_ok c -> file_words c ls -> accepted ft own taken (numbered 1 ls) ->
  let ds := filter (fun w => existsb (beq w) taken) (flat_map snd ls) in
  exists s l, load ft own c taken = Val (match ds with [] => Done s l | _ => Failed s (Duplicates ds) end) /\ (own = false -> ds = []).
Proof.
  intros ft own taken c ls Hc Hls A ds. apply file_words_fun in Hls. pose proof (items_ok c 1 Hc) as Hok.
  unfold load. rewrite run_lines. unfold items in *. rewrite <- Hls in *.
  destruct (accepted_run ft own taken _ Hok A) as (l & d & s & R & [Il Is Ik Id Io If]). rewrite R. cbn [obind]. rewrite numbered_words in Id.
  change (d = ds) in Id. rewrite <- Id. exists s, l. split; [destruct d; reflexivity|exact Io].
Qed.

Section Fs.
Variable fs : bytes -> option CountModel.node.
Hypothesis Hfs : forall p c, is_file fs p c -> bytes_ok c.
Definition opened (p : bytes) : bytes := if negb (isRegular fs p) && negb (hasExtension p) then p ++ TextFileExtension else p.
Lemma found_iff : forall p q c, found fs p q c <-> q = opened p /\ isRegular fs (opened p) = true /\ contentsOf fs (opened p) = c.
Proof.
  intros p q c. unfold found, opened. destruct (isRegular fs p) eqn:R; cbn [negb andb].
  - pose proof (proj1 (regular_file fs p) R) as F. split.
    + intros [[-> H]|[H _]]; [apply file_contents in H; tauto|exfalso; exact (H _ F)].
    + intros (-> & _ & <-). left. auto.
  - pose proof (proj1 (not_regular fs p) R) as NF. destruct (hasExtension p) eqn:X; cbn [negb].
    + apply hasExt_iff in X. split; [|intros (_ & H & _); congruence]. intros [[-> H]|[_ [H _]]]; [exfalso; exact (NF _ H)|contradiction].
    + apply hasExt_not in X. change TextFileExtension with (b_ ".txt"). split.
      * intros [[-> H]|[_ [_ [-> H]]]]; [exfalso; exact (NF _ H)|]. apply file_contents in H. tauto.
      * intros (-> & H & <-). right. split; [exact NF|]. split; [exact X|]. split; [reflexivity|]. apply regular_file. exact H.
Qed.
Lemma found_ok : forall p q c, found fs p q c -> bytes_ok c.
Proof. intros p q c H. apply found_iff in H. destruct H as (_ & R & <-). apply regular_file in R. exact (Hfs _ _ R). Qed.

Variables (k : list_kind) (ft : FileType) (p given : bytes) (st : list_static).
Notation typed := (negb (kind_eqb k PlainList)).
Lemma newList_load : forall c, found fs p (opened p) c -> newListT fs k ft p given st
  = (v <- load (kind_type k ft) typed c (uniqueOf st k) ;;
     Val (match v with
          | Done s l => (setUnique st k s, inl l)
          | Failed s e => (setUnique st k s, inr (errorText (match given with [] => firstUpper (stem p) | _ => given end) (opened p) e))
          end)).
Proof.
  intros c H. apply found_iff in H. destruct H as (_ & R & C). 
  transitivity (if negb (isRegular fs (opened p)) then Val (st, inr (b_ "can't open " ++ opened p))
    else '(st', r) <- construct k ft (contentsOf fs (opened p)) st ;;
      Val (st', match r with inl l => inl l | inr e => inr (errorText (match given with [] => firstUpper (stem p) | _ => given end) (opened p) e) end)); [reflexivity|].
  rewrite R, C, construct_load. cbn [negb].
  destruct (load _ _ _ _) as [[s l|s e]|e| |]; reflexivity.
Qed.
Lemma says_newList : forall w, list_says fs (kind_type k ft) typed (uniqueOf st k) p given w -> exists st', newListT fs k ft p given st = Val (st', inr w).
Proof.
  intros w H. destruct H as [NF X|NF X NF2|q c ls b x r w F Hw E A Fl|q c ls n d F Hw Ty A ds Dn Ln W].
  - unfold newListT. cbv zeta. rewrite (proj2 (not_regular fs p) NF), (proj2 (hasExt_iff p) X). cbn [negb andb]. rewrite (proj2 (not_regular fs p) NF). eexists. reflexivity.
  - unfold newListT. cbv zeta. rewrite (proj2 (not_regular fs p) NF), (proj2 (hasExt_not p) X). cbn [negb andb]. change TextFileExtension with (b_ ".txt").
    rewrite (proj2 (not_regular fs _) NF2). eexists. reflexivity.
  - pose proof (found_ok _ _ _ F) as Hc. pose proof (proj1 (found_iff _ _ _) F) as (-> & _ & _). rewrite (newList_load c F).
    destruct (load_fault _ _ _ c ls b x r w Hc Hw E A Fl) as (s & e & -> & T). cbn [obind]. rewrite T. eexists. reflexivity.
  - pose proof (found_ok _ _ _ F) as Hc. pose proof (proj1 (found_iff _ _ _) F) as (-> & _ & _). rewrite (newList_load c F).
    destruct (load_accepted _ _ _ c ls Hc Hw A) as (s & l & -> & _). fold ds. destruct ds as [|y ds']; [congruence|]. cbn [obind].
    apply list_name_of in Ln. rewrite <- Ln. cbn [errorText]. unfold inFile. rewrite (written_one _ _ _ (to_string_written _) W). rewrite <- !app_assoc. eexists. reflexivity.
Qed.
Lemma newList_cases : (exists st' l, newListT fs k ft p given st = Val (st', inl l)) \/ exists w, list_says fs (kind_type k ft) typed (uniqueOf st k) p given w.
Proof.
  destruct (isRegular fs (opened p)) eqn:R.
  - assert (F : found fs p (opened p) (contentsOf fs (opened p))) by (apply found_iff; auto). pose proof (found_ok _ _ _ F) as Hc.
    set (c := contentsOf fs (opened p)) in *. set (ls := map (fun l => (l, getlines 32 l)) (getlines 10 c)).
    assert (Hw : file_words c ls) by (apply file_words_fun; reflexivity).
    destruct (first_fault (kind_type k ft) typed (uniqueOf st k) (numbered 1 ls) (items_ok c 1 Hc)) as [A|(b & x & r & w & E & A & Fl)].
    + destruct (load_accepted _ _ _ c ls Hc Hw A) as (s & l & L & O). destruct (filter (fun w => existsb (beq w) (uniqueOf st k)) (flat_map snd ls)) as [|y ds] eqn:D.
      * left. rewrite (newList_load c F), L. cbn [obind]. eauto.
      * right. eexists. eapply (ls_duplicates fs _ _ _ p given (opened p) c ls _ _ F Hw); [|exact A| | |apply to_string_written].
        -- destruct typed; [reflexivity|]. specialize (O eq_refl). discriminate O.
        -- rewrite D. discriminate.
        -- apply list_name_of. reflexivity.
    + right. eexists. exact (ls_word fs _ _ _ p given (opened p) c ls b x r w F Hw E A Fl).
  - right. unfold opened in R. destruct (isRegular fs p) eqn:R1; cbn [negb andb] in R; [congruence|]. destruct (hasExtension p) eqn:X; cbn [negb] in R.
    + eexists. apply ls_missing; [exact (proj1 (not_regular fs p) R1)|apply hasExt_iff; exact X].
    + eexists. apply ls_missing_both; [exact (proj1 (not_regular fs p) R1)|apply hasExt_not; exact X|exact (proj1 (not_regular fs _) R)].
Qed.
Lemma newList_says : forall w, (exists st', newListT fs k ft p given st = Val (st', inr w)) <-> list_says fs (kind_type k ft) typed (uniqueOf st k) p given w.
Proof.
  intro w. split; [|apply says_newList]. intros [st' H]. destruct newList_cases as [(st2 & l & E)|[w' W]]; [rewrite E in H; discriminate H|].
  destruct (says_newList w' W) as [st2 E]. rewrite E in H. injection H as _ <-. exact W.
Qed.
End Fs.
