(** Facts about the messages about tables. *)
From Verif Require Import BaseFacts ErrTableModel ErrTableSpec ColumnFileProofs ColumnFileLemmas ListProofs.
From Verif Require Import JoinSpec.
From Coq Require Import Permutation Sorted.
Open Scope N_scope.
Arguments N.mul : simpl never. Arguments N.add : simpl never. Arguments N.sub : simpl never.

(** ** The same as without texts *)

Lemma emplace_plain : forall name cs acc,
  plain (emplaceColumnsE name cs acc) = match emplaceColumns cs acc with Some l => Val l | None => Throw DomainError end.
Proof.
  intro name. induction cs as [|c cs IH]; intro acc; cbn [emplaceColumnsE emplaceColumns]; [reflexivity|].
  destruct (existsb _ acc); [reflexivity|apply IH].
Qed.
Lemma header_plain : forall name hs pos found cs ctp,
  plain (processHeaderE name hs pos found cs ctp) = processHeader hs pos found cs ctp.
Proof.
  intro name. induction hs as [|h hs IH]; intros pos found cs ctp; cbn [processHeaderE processHeader]; [reflexivity|].
  destruct (existsb (beq h) found); [reflexivity|]. destruct (findCol h cs) as [c|]; [|reflexivity].
  destruct (cnumber c <? List.length ctp)%nat; [apply IH|reflexivity].
Qed.
Lemma insertName_len : forall n l, List.length (insertName n l) = S (List.length l).
Proof. intros n l. induction l as [|x l IH]; [reflexivity|]. cbn [insertName]. destruct (blt n x); [reflexivity|]. cbn [List.length]. rewrite IH. reflexivity. Qed.
Lemma sortNames_len : forall l, List.length (sortNames l) = List.length l.
Proof. induction l as [|x l IH]; [reflexivity|]. unfold sortNames in *. cbn [fold_right]. rewrite insertName_len, IH. reflexivity. Qed.
Lemma open_plain : forall reg name s cols delim, plain (openFileE reg name (Contents s) cols delim) = openFile reg s cols delim.
Proof.
  intros reg name s cols delim. unfold openFileE, openFile. destruct cols as [|c cols]; [reflexivity|].
  destruct (getlines 10 s) as [|hl rows]; [reflexivity|]. rewrite plain_bind, emplace_plain.
  destruct (emplaceColumns (c :: cols) []) as [cn|]; [|reflexivity]. cbn [obind].
  rewrite plain_bind, header_plain. destruct (processHeader _ _ _ _ _) as [[m ctp]|e| |]; try reflexivity. cbn [obind].
  unfold verifyHeaderColumns. pose proof (sortNames_len (map cname m)) as E. rewrite map_length in E.
  destruct (sortNames (map cname m)) as [|x [|y l]], m as [|d m]; cbn [List.length] in E; try discriminate E; reflexivity.
Qed.
Lemma next_plain : forall name f, plain (nextRowE name f) = nextRow f.
Proof.
  intros name f. unfold nextRowE, nextRow. destruct (file f) as [|line rest]; [reflexivity|].
  destruct (storeFields _ _ _) as [[i vals]|]; [|reflexivity]. cbv zeta.
  destruct ((i =? List.length (rowValues f) - 1)%nat && _); [reflexivity|]. destruct (i <? List.length (rowValues f))%nat; reflexivity.
Qed.
Lemma rows_plain : forall name n f, plain (readRowsE name n f) = readRows n f.
Proof.
  intros name n. induction n as [|n IH]; intro f; [reflexivity|]. cbn [readRowsE readRows]. rewrite plain_bind, next_plain.
  destruct (nextRow f) as [[b g]|e| |]; try reflexivity. apply IH.
Qed.
Lemma get_plain : forall name f c, plain (getFieldE name f c) = getField f c.
Proof.
  intros name f c. unfold getFieldE, getField. destruct (currentRow f =? 0); [reflexivity|].
  destruct (nth_error (columnToPosition f) (cnumber c)) as [[p|]|]; try reflexivity. destruct (nth_error (rowValues f) p); reflexivity.
Qed.
Lemma u64_plain : forall name row s c max, plain (processU64E name row s c max) = processU64 s max.
Proof.
  intros name row s c max. unfold processU64E, processU64. destruct (stoul s) as [i|e| |]; try reflexivity.
  destruct (negb (max =? 0) && (max <? i)); reflexivity.
Qed.
Lemma getU64_plain : forall name f c max, plain (getU64E name f c max) = getU64 f c max.
Proof.
  intros. unfold getU64E, getU64. rewrite <- (get_plain name). apply plain_bind2. intro s. apply u64_plain.
Qed.
Lemma getOptU64_plain : forall name f c max, plain (getOptU64E name f c max) = getOptU64 f c max.
Proof.
  intros. unfold getOptU64E, getOptU64. rewrite <- (get_plain name). apply plain_bind2. intros [|b s]; [reflexivity|].
  rewrite plain_bind, u64_plain. reflexivity.
Qed.
Lemma getBool_plain : forall name f c, plain (getBoolE name f c) = getBool f c.
Proof.
  intros. unfold getBoolE, getBool. rewrite <- (get_plain name). apply plain_bind2. intros [|b [|d s]]; try reflexivity. cbn [convBool].
  destruct ((b =? 89) || (b =? 84)); [reflexivity|]. destruct ((b =? 78) || (b =? 70)); reflexivity.
Qed.
Lemma getChar32_plain : forall name f c, plain (getChar32E name f c) = getChar32 f c.
Proof.
  intros. unfold getChar32E, getChar32. rewrite <- (get_plain name). apply plain_bind2. intro s. unfold convChar32.
  destruct ((len s <? 4) || (5 <? len s)); [reflexivity|]. destruct (existsb _ s); reflexivity.
Qed.

(** ** The order of names *)

Lemma blt_before : forall a b, blt a b = true <-> before a b.
Proof.
  induction a as [|x a IH]; intros [|y b]; cbn [blt].
  - split; [discriminate|intro H; inversion H].
  - split; [constructor|reflexivity].
  - split; [discriminate|intro H; inversion H].
  - rewrite orb_true_iff, andb_true_iff, N.ltb_lt, N.eqb_eq. split.
    + intros [H|[-> H]]; [constructor; exact H|]. apply before_same. apply IH. exact H.
    + intro H. inversion H; subst; [left; assumption|right; split; [reflexivity|apply IH; assumption]].
Qed.
Lemma before_irrefl : forall a, ~ before a a.
Proof. induction a as [|x a IH]; intro H; inversion H; subst; [lia|apply IH; assumption]. Qed.
Lemma before_trans : forall a b c, before a b -> before b c -> before a c.
Proof.
  intros a b c H. revert c. induction H as [c r|x y a b L|x a b H IH]; intros c' H2; inversion H2; subst.
  - constructor.
  - constructor.
  - apply before_less. lia.
  - apply before_less. assumption.
  - apply before_less. assumption.
  - apply before_same. apply IH. assumption.
Qed.
Lemma before_total : forall a b, a <> b -> before a b \/ before b a.
Proof.
  induction a as [|x a IH]; intros [|y b] Hne.
  - congruence.
  - left. constructor.
  - right. constructor.
  - destruct (N.lt_trichotomy x y) as [L|[->|L]]; [left; constructor; exact L| |right; constructor; exact L].
    destruct (IH b) as [H|H]; [congruence|left; apply before_same; exact H|right; apply before_same; exact H].
Qed.
Lemma insertName_in : forall n l x, In x (insertName n l) <-> x = n \/ In x l.
Proof.
  intros n l x. induction l as [|y l IH]; cbn [insertName].
  - cbn [In]. intuition.
  - destruct (blt n y); cbn [In]; [intuition|]. rewrite IH. intuition.
Qed.
Lemma insertName_sorted : forall n l, StronglySorted before l -> ~ In n l -> StronglySorted before (insertName n l).
Proof.
  intros n l. induction l as [|y l IH]; intros Hs Hn; cbn [insertName]; [repeat constructor|].
  inversion Hs as [|a b H1 H2]; subst. destruct (blt n y) eqn:E.
  - apply blt_before in E. constructor; [exact Hs|]. constructor; [exact E|]. rewrite Forall_forall in *. intros z Hz.
    apply before_trans with y; [exact E|apply H2; exact Hz].
  - constructor; [apply IH; [exact H1|intro Hi; apply Hn; right; exact Hi]|]. rewrite Forall_forall in *. intros z Hz.
    apply insertName_in in Hz. destruct Hz as [->|Hz]; [|apply H2; exact Hz].
    destruct (before_total n y) as [H|H]; [intros ->; apply Hn; left; reflexivity| |exact H].
    apply blt_before in H. congruence.
Qed.
Lemma sortNames_in : forall l x, In x (sortNames l) <-> In x l.
Proof. induction l as [|y l IH]; intro x; [reflexivity|]. unfold sortNames in *. cbn [fold_right]. rewrite insertName_in, IH. cbn [In]. intuition. Qed.
Lemma sortNames_sorted : forall l, NoDup l -> StronglySorted before (sortNames l).
Proof.
  induction l as [|y l IH]; intro H; [constructor|]. apply NoDup_cons_iff in H. destruct H as [H1 H2]. unfold sortNames in *. cbn [fold_right].
  apply insertName_sorted; [apply IH; exact H2|]. intro Hi. apply H1. apply (sortNames_in l y). exact Hi.
Qed.
Lemma sorted_same : forall l m, StronglySorted before l -> StronglySorted before m -> (forall x, In x l <-> In x m) -> l = m.
Proof.
  induction l as [|x l IH]; intros [|y m] Hl Hm H.
  - reflexivity.
  - exfalso. apply (proj2 (H y)). left. reflexivity.
  - exfalso. apply (proj1 (H x)). left. reflexivity.
  - inversion Hl as [|a b L1 L2]; subst. inversion Hm as [|a b M1 M2]; subst. rewrite Forall_forall in L2, M2.
    assert (x = y).
    { destruct (proj1 (H x) (or_introl eq_refl)) as [E|E]; [congruence|]. destruct (proj2 (H y) (or_introl eq_refl)) as [F|F]; [exact F|].
      exfalso. apply (before_irrefl x). apply before_trans with y; [apply L2; exact F|apply M2; exact E]. }
    subst y. f_equal. apply IH; [exact L1|exact M1|]. intro z. specialize (H z). split; intro Hz.
    + destruct (proj1 H (or_intror Hz)) as [E|E]; [|exact E]. subst z. exfalso. apply (before_irrefl x). apply L2. exact Hz.
    + destruct (proj2 H (or_intror Hz)) as [E|E]; [|exact E]. subst z. exfalso. apply (before_irrefl x). apply M2. exact Hz.
Qed.

(** ** The header *)

Lemma nodup_app : forall A (a b : list A), NoDup (a ++ b) -> NoDup a /\ NoDup b /\ forall x, In x a -> ~ In x b.
Proof.
  intros A a b. induction a as [|x a IH]; intro H; [repeat split; [constructor|exact H|intros x []]|].
  cbn [app] in H. apply NoDup_cons_iff in H. destruct H as [H1 H2]. destruct (IH H2) as [Ha [Hb Hab]]. split; [|split; [exact Hb|]].
  - constructor; [intro X; apply H1; apply in_or_app; left; exact X|exact Ha].
  - intros y [<-|Hy] X; [apply H1; apply in_or_app; right; exact X|exact (Hab y Hy X)].
Qed.

Lemma emplace_twice : forall name c b a acc, NoDup (map cname (acc ++ a)) -> In (cname c) (map cname (acc ++ a)) ->
  emplaceColumnsE name (a ++ c :: b) acc = tableError name 0 (b_ "duplicate column '" ++ cname c ++ b_ "'").
Proof.
  intros name c b a. induction a as [|d a IH]; intros acc Hn Hi; cbn [app emplaceColumnsE].
  - rewrite app_nil_r in Hi. replace (existsb _ acc) with true; [reflexivity|]. symmetry. apply existsb_exists.
    apply in_map_iff in Hi. destruct Hi as [d [Hd Hi]]. exists d. split; [exact Hi|]. apply beq_eq. exact Hd.
  - destruct (existsb _ acc) eqn:E.
    + exfalso. apply existsb_exists in E. destruct E as [e [He E]]. apply beq_eq in E. rewrite map_app in Hn. cbn [map] in Hn.
      apply NoDup_remove_2 in Hn. apply Hn. apply in_or_app. left. rewrite <- E. apply in_map. exact He.
    + replace (acc ++ d :: a) with ((acc ++ [d]) ++ a) in * by (rewrite <- app_assoc; reflexivity). apply IH; assumption.
Qed.
Lemma emplace_ok : forall name cs acc, NoDup (map cname (acc ++ cs)) -> emplaceColumnsE name cs acc = Got (acc ++ cs).
Proof.
  intros name cs acc H. pose proof (emplace_plain name cs acc) as E. rewrite emplaceColumns_some in E by exact H.
  destruct (emplaceColumnsE name cs acc); cbn in E; congruence.
Qed.
Lemma emplace_says : forall name cs acc e w, NoDup (map cname acc) -> emplaceColumnsE name cs acc = Says e w ->
  e = DomainError /\ exists a c b, cs = a ++ c :: b /\ NoDup (map cname (acc ++ a)) /\ In (cname c) (map cname (acc ++ a))
    /\ w = errorMsg name 0 (b_ "duplicate column '" ++ cname c ++ b_ "'").
Proof.
  intros name cs. induction cs as [|c cs IH]; intros acc e w Hn H; cbn [emplaceColumnsE] in H; [discriminate|].
  destruct (existsb _ acc) eqn:E.
  - unfold tableError in H. injection H as <- <-. split; [reflexivity|]. exists [], c, cs. rewrite app_nil_r.
    split; [reflexivity|]. split; [exact Hn|]. split; [|reflexivity]. apply existsb_exists in E. destruct E as [d [Hd E]].
    apply beq_eq in E. rewrite <- E. apply in_map. exact Hd.
  - apply IH in H.
    + destruct H as [He [a [d [b [-> [H1 [H2 H3]]]]]]]. split; [exact He|]. exists (c :: a), d, b.
      rewrite <- app_assoc in H1, H2. cbn [app] in H1, H2. repeat split; assumption.
    + rewrite map_app. cbn [map]. apply NoDup_Add with (a := cname c) (l := map cname acc).
      * rewrite <- (app_nil_r (map cname acc)) at 1. apply Add_app.
      * split; [exact Hn|]. intro Hi. apply in_map_iff in Hi. destruct Hi as [d [Hd Hi]].
        assert (X : existsb (fun d => beq (cname d) (cname c)) acc = true); [|congruence].
        apply existsb_exists. exists d. split; [exact Hi|]. apply beq_eq. exact Hd.
Qed.

(** what is left of the columns after these headers *)
Definition without (hs : list bytes) (cs : list Column) : list Column := fold_left (fun l h => eraseCol h l) hs cs.
Lemma without_in : forall hs cs c, In c (without hs cs) <-> In c cs /\ ~ In (cname c) hs.
Proof.
  unfold without. induction hs as [|h hs IH]; intros cs c; cbn [fold_left In]; [tauto|]. rewrite IH, eraseCol_in.
  assert (cname c = h <-> h = cname c) by (split; congruence). tauto.
Qed.
Lemma numbers_erase : forall h cs ctp p k, numbers_ok cs ctp -> numbers_ok (eraseCol h cs) (update ctp k p).
Proof.
  intros h cs ctp p k [Hn1 Hn2]. split.
  - rewrite update_length. apply Forall_forall. intros d Hd. apply eraseCol_in in Hd. rewrite Forall_forall in Hn1. apply Hn1. tauto.
  - clear -Hn2. induction cs as [|d cs IH]; [constructor|]. cbn [map] in Hn2. apply NoDup_cons_iff in Hn2. destruct Hn2 as [H1 H2].
    unfold eraseCol. cbn [filter]. destruct (negb (beq (cname d) h)); cbn [map]; [|apply IH; exact H2].
    constructor; [|apply IH; exact H2]. intro Hin. apply H1. apply in_map_iff in Hin. destruct Hin as [e [He Hin]]. apply filter_In in Hin.
    apply in_map_iff. exists e. tauto.
Qed.
Lemma header_prefix : forall name rest a pos found cs ctp, numbers_ok cs ctp -> NoDup a -> incl a (map cname cs) ->
  (forall x, In x a -> ~ In x found) ->
  exists pos' ctp', processHeaderE name (a ++ rest) pos found cs ctp = processHeaderE name rest pos' (rev a ++ found) (without a cs) ctp'
    /\ numbers_ok (without a cs) ctp'.
Proof.
  intros name rest a. induction a as [|h a IH]; intros pos found cs ctp Hnum Hnd Hincl Hf.
  - exists pos, ctp. split; [reflexivity|exact Hnum].
  - apply NoDup_cons_iff in Hnd. destruct Hnd as [Hh Hnd]. cbn [app processHeaderE].
    destruct (existsb (beq h) found) eqn:Ef; [exfalso; apply existsb_beq in Ef; apply (Hf h); [left; reflexivity|exact Ef]|].
    destruct (findCol h cs) as [c|] eqn:Ec; [|exfalso; apply (findCol_none _ _ Ec); apply Hincl; left; reflexivity].
    apply findCol_some in Ec. destruct Ec as [Hc Hname]. pose proof Hnum as Hnum0. destruct Hnum as [Hn1 _]. rewrite Forall_forall in Hn1.
    rewrite (proj2 (Nat.ltb_lt _ _) (Hn1 c Hc)).
    destruct (IH (S pos) (h :: found) (eraseCol h cs) (update ctp (cnumber c) (Some pos))) as [p' [ctp' [E Hn']]].
    + apply numbers_erase. exact Hnum0.
    + exact Hnd.
    + intros x Hx. pose proof (Hincl x (or_intror Hx)) as Hi. apply in_map_iff in Hi. destruct Hi as [d [Hd Hi]]. apply in_map_iff. exists d.
      split; [exact Hd|]. apply eraseCol_in. split; [exact Hi|]. rewrite Hd. intros ->. exact (Hh Hx).
    + intros x Hx [E|E]; [subst x; exact (Hh Hx)|]. exact (Hf x (or_intror Hx) E).
    + exists p', ctp'. rewrite E. cbn [rev]. rewrite <- app_assoc. split; [reflexivity|exact Hn'].
Qed.
Lemma header_says : forall name hs pos found cs ctp e w, numbers_ok cs ctp -> processHeaderE name hs pos found cs ctp = Says e w ->
  e = DomainError /\ exists a h b, hs = a ++ h :: b /\ NoDup a /\ incl a (map cname cs) /\ (forall x, In x a -> ~ In x found)
    /\ ((In h found \/ In h a) /\ w = errorMsg name 0 (b_ "duplicate header '" ++ h ++ b_ "'")
        \/ ~ In h found /\ ~ In h a /\ ~ In h (map cname cs) /\ w = errorMsg name 0 (b_ "unrecognized header '" ++ h ++ b_ "'")).
Proof.
  intros name hs. induction hs as [|h hs IH]; intros pos found cs ctp e w Hnum H; cbn [processHeaderE] in H; [discriminate|].
  destruct (existsb (beq h) found) eqn:Ef.
  - unfold tableError in H. injection H as <- <-. split; [reflexivity|]. exists [], h, hs. apply existsb_beq in Ef.
    split; [reflexivity|]. split; [constructor|]. split; [intros x []|]. split; [intros x []|]. left. split; [left; exact Ef|reflexivity].
  - assert (Hf : ~ In h found) by (intro X; apply existsb_beq in X; congruence).
    destruct (findCol h cs) as [c|] eqn:Ec.
    + destruct (cnumber c <? List.length ctp)%nat; [|discriminate]. apply findCol_some in Ec. destruct Ec as [Hc Hname].
      apply IH in H; [|apply numbers_erase; exact Hnum].
      destruct H as [He [a [g [b [-> [H1 [H2 [H3 H4]]]]]]]]. split; [exact He|]. exists (h :: a), g, b. split; [reflexivity|].
      assert (Hha : ~ In h a) by (intro X; apply (H3 h X); left; reflexivity).
      split; [constructor; assumption|]. split.
      { intros x [<-|Hx]; [rewrite <- Hname; apply in_map; exact Hc|]. apply H2 in Hx. apply in_map_iff in Hx. destruct Hx as [d [<- Hd]].
        apply eraseCol_in in Hd. apply in_map. tauto. }
      split; [intros x [<-|Hx]; [exact Hf|]; intro X; apply (H3 x Hx); right; exact X|].
      destruct H4 as [[[[->|H4]|H4] ->]|[H4 [H5 [H6 ->]]]].
      * left. split; [right; left; reflexivity|reflexivity].
      * left. split; [left; exact H4|reflexivity].
      * left. split; [right; right; exact H4|reflexivity].
      * right. split; [intro X; apply H4; right; exact X|]. split; [intros [X|X]; [apply H4; left; exact X|exact (H5 X)]|].
        split; [|reflexivity]. intro X. apply in_map_iff in X. destruct X as [d [Hd X]]. apply H6. apply in_map_iff. exists d. split; [exact Hd|].
        apply eraseCol_in. split; [exact X|]. intro Y. apply H4. left. congruence.
    + unfold tableError in H. injection H as <- <-. split; [reflexivity|]. exists [], h, hs. split; [reflexivity|]. split; [constructor|].
      split; [intros x []|]. split; [intros x []|]. right. split; [exact Hf|]. split; [intros []|].
      split; [exact (findCol_none _ _ Ec)|reflexivity].
Qed.
Lemma header_got : forall name hs pos found cs ctp m ctp', NoDup (map cname cs) -> numbers_ok cs ctp ->
  processHeaderE name hs pos found cs ctp = Got (m, ctp') ->
  NoDup hs /\ incl hs (map cname cs) /\ NoDup (map cname m) /\ forall n, In n (map cname m) <-> In n (map cname cs) /\ ~ In n hs.
Proof.
  intros name hs pos found cs ctp m ctp' Hnd Hnum H.
  assert (E : processHeader hs pos found cs ctp = Val (m, ctp')) by (rewrite <- (header_plain name), H; reflexivity).
  apply processHeader_sound in E; [|exact Hnd|exact Hnum]. destruct E as [P _].
  destruct (nodup_app _ _ _ (Permutation_NoDup P Hnd)) as [Hn1 [Hn2 Hn]].
  split; [exact Hn1|]. split; [intros x Hx; apply (Permutation_in x (Permutation_sym P)); apply in_or_app; left; exact Hx|].
  split; [exact Hn2|]. intro n. split.
  - intro Hi. split; [apply (Permutation_in n (Permutation_sym P)); apply in_or_app; right; exact Hi|].
    intro Hh. exact (Hn n Hh Hi).
  - intros [H1 H2]. apply (Permutation_in n P) in H1. apply in_app_or in H1. tauto.
Qed.
Lemma columnList_more : forall l msg, msg <> [] -> columnList msg l = msg ++ flat_map (fun n => b_ ", " ++ quoted n) l.
Proof.
  induction l as [|n l IH]; intros msg H; cbn [columnList flat_map]; [rewrite app_nil_r; reflexivity|].
  destruct msg as [|c msg]; [congruence|]. rewrite IH by discriminate. unfold quoted. rewrite <- !app_assoc. reflexivity.
Qed.
Lemma columnList_text : forall n l, columnList [] (n :: l) = b_ " " ++ separated (b_ ", ") (map quoted (n :: l)).
Proof.
  intros n l. cbn [columnList]. rewrite columnList_more by discriminate. cbn [map].
  assert (E : forall x l, separated (b_ ", ") (x :: map quoted l) = x ++ flat_map (fun n => b_ ", " ++ quoted n) l).
  { clear. intros x l. revert x. induction l as [|y l IH]; intro x; [cbn; rewrite app_nil_r; reflexivity|].
    cbn [map flat_map]. change (separated (b_ ", ") (x :: quoted y :: map quoted l)) with (x ++ b_ ", " ++ separated (b_ ", ") (quoted y :: map quoted l)).
    rewrite IH. rewrite <- !app_assoc. reflexivity. }
  rewrite E. unfold quoted. rewrite <- !app_assoc. reflexivity.
Qed.

Lemma says_inj : forall A e f (a b : bytes), @Says A e a = Says f b -> e = f /\ a = b.
Proof. intros A e f a b H. inversion H. split; reflexivity. Qed.
Section Header.
Variables (history : list bytes) (created : list Column) (reg : registry) (cols : list Column) (delim : N) (name : bytes).
Hypothesis Hreg : newColumns [] history = (created, reg).
Hypothesis Hincl : incl cols created.

Lemma M : forall r, errorMsg name 0 r = r ++ in_file name.
Proof. intro r. unfold errorMsg, in_file. rewrite N.eqb_refl, app_nil_r. reflexivity. Qed.
Lemma C : forall p, cols <> [] -> openFileE reg name p cols delim =
    match p with
    | Nothing => tableError name 0 (b_ "doesn't exist")
    | NotFile => tableError name 0 (b_ "not regular file")
    | Contents contents =>
        match getlines 10 contents with
        | [] => tableError name 0 (b_ "missing header row")
        | headerRow :: rows =>
            colNames <~ emplaceColumnsE name cols [] ;;
            '(missing, ctp) <~ processHeaderE name (getlines delim headerRow) 0 [] colNames (repeat None (List.length reg)) ;;
            _ <~ verifyHeaderColumns name missing ;;
            Got {| file := rows; delimiter := delim; currentRow := 0;
                   rowValues := repeat [] (List.length cols); columnToPosition := ctp |}
        end
    end.
Proof. intros p Hc. unfold openFileE. destruct cols; [congruence|reflexivity]. Qed.
Lemma getlines_nothing : forall s, getlines 10 s = [] -> s = [].
Proof.
  intros [|c s] Eg; [reflexivity|]. exfalso. unfold getlines in Eg. cbn [getlines_from] in Eg.
  destruct (c =? 10); [discriminate|]. revert Eg. cbn [app]. generalize [c]. clear. induction s as [|d s IH]; intros l E; cbn [getlines_from] in E; [discriminate|].
  destruct (d =? 10); [discriminate|]. exact (IH _ E).
Qed.
Lemma header_all : forall fields, NoDup (map cname cols) -> NoDup fields -> incl fields (map cname cols) ->
  exists m ctp, processHeaderE name fields 0 [] cols (repeat None (List.length reg)) = Got (m, ctp)
    /\ forall ms, missing (map cname cols) fields ms -> sortNames (map cname m) = ms.
Proof.
  intros fields Hnd Hfd Hfi. pose proof (created_ok _ _ _ _ Hreg Hincl Hnd) as Hnum.
  destruct (header_prefix name [] fields 0 [] cols (repeat None (List.length reg)) Hnum Hfd Hfi (fun _ _ X => X)) as [pos' [ctp' [E _]]].
  rewrite app_nil_r in E. cbn [processHeaderE] in E. exists (without fields cols), ctp'. split; [exact E|].
  intros ms [Hs Hm]. destruct (header_got _ _ _ _ _ _ _ _ Hnd Hnum E) as [_ [_ [H3 H4]]].
  apply sorted_same; [apply sortNames_sorted; exact H3|exact Hs|]. intro x. rewrite sortNames_in, Hm. apply H4.
Qed.
Lemma wrong_says : forall p r, header_wrong (map cname cols) delim p r ->
  openFileE reg name p cols delim = Says DomainError (r ++ in_file name).
Proof.
  assert (Hd : forall s line lines, cut 10 s (line :: lines) -> getlines 10 s = line :: lines) by (intros; symmetry; apply cut_getlines; assumption).
  assert (Hf : forall line fs, cut delim line fs -> getlines delim line = fs) by (intros; symmetry; apply cut_getlines; assumption).
  intros p r H. destruct H as [p E|E|E|E|s a n b Hs E Hnd Hi|s line lines a h b Hnd Hs Hl Ha Hai Hh|s line lines a h b Hcs Hnd Hs Hl Ha Hai Hh
    |s line lines fields n Hnd Hs Hl Hfd Hfi Hm|s line lines fields m n ms Hnd Hs Hl Hfd Hfi Hm].
  - apply map_eq_nil in E. rewrite E. unfold openFileE, tableError. rewrite M. reflexivity.
  - rewrite C by (intros ->; apply E; reflexivity). unfold tableError. rewrite M. reflexivity.
  - rewrite C by (intros ->; apply E; reflexivity). unfold tableError. rewrite M. reflexivity.
  - rewrite C by (intros ->; apply E; reflexivity). cbn. unfold tableError. rewrite M. reflexivity.
  - rewrite C by (intros ->; destruct a; discriminate E).
    destruct (getlines 10 s) as [|line lines] eqn:Eg; [exfalso; exact (Hs (getlines_nothing s Eg))|].
    apply map_eq_app in E. destruct E as [ca [cb [E1 [E2 E3]]]]. destruct cb as [|c cb]; [discriminate E3|]. cbn [map] in E3. injection E3 as E3 E4.
    rewrite E1, emplace_twice by (cbn [app]; rewrite E2; first [exact Hnd|rewrite E3; exact Hi]). cbn [rbind]. unfold tableError. rewrite M, E3. reflexivity.
  - destruct a as [|a0 a]; [destruct Hh|].
    rewrite C by (intros ->; apply (Hai a0); left; reflexivity). rewrite (Hd _ _ _ Hs), (Hf _ _ Hl).
    rewrite emplace_ok by exact Hnd. cbn [rbind app].
    destruct (header_prefix name (h :: b) (a0 :: a) 0 [] cols (repeat None (List.length reg))
      (created_ok _ _ _ _ Hreg Hincl Hnd) Ha Hai (fun _ _ X => X)) as [pos' [ctp' [E _]]].
    cbn [app] in E. rewrite E. cbn [processHeaderE]. rewrite app_nil_r.
    replace (existsb (beq h) (rev (a0 :: a))) with true by (symmetry; apply existsb_beq; rewrite <- in_rev; exact Hh).
    unfold tableError. cbn [rbind]. rewrite M. reflexivity.
  - rewrite C by (intros ->; apply Hcs; reflexivity). rewrite (Hd _ _ _ Hs), (Hf _ _ Hl).
    rewrite emplace_ok by exact Hnd. cbn [rbind app].
    destruct (header_prefix name (h :: b) a 0 [] cols (repeat None (List.length reg))
      (created_ok _ _ _ _ Hreg Hincl Hnd) Ha Hai (fun _ _ X => X)) as [pos' [ctp' [E _]]].
    rewrite E. cbn [processHeaderE]. rewrite app_nil_r.
    replace (existsb (beq h) (rev a)) with false.
    2:{ symmetry. apply Bool.not_true_is_false. intro X. apply existsb_beq in X. rewrite <- in_rev in X. exact (Hh (Hai h X)). }
    destruct (findCol h (without a cols)) as [c|] eqn:Ec.
    { exfalso. apply findCol_some in Ec. destruct Ec as [Hc Hn]. apply without_in in Hc. apply Hh. rewrite <- Hn. apply in_map. tauto. }
    unfold tableError. cbn [rbind]. rewrite M. reflexivity.
  - rewrite C by (intros ->; destruct Hm as [_ Hm]; destruct (proj1 (Hm n) (or_introl eq_refl)) as [[] _]).
    rewrite (Hd _ _ _ Hs), (Hf _ _ Hl). rewrite emplace_ok by exact Hnd. cbn [rbind app].
    destruct (header_all fields Hnd Hfd Hfi) as [m [ctp' [E F]]]. rewrite E. cbn [rbind]. unfold verifyHeaderColumns.
    rewrite (F [n] Hm). unfold tableError. cbn [rbind]. rewrite M. unfold quoted. rewrite <- !app_assoc. reflexivity.
  - rewrite C by (intros ->; destruct Hm as [_ Hm]; destruct (proj1 (Hm n) (or_intror (or_introl eq_refl))) as [[] _]).
    rewrite (Hd _ _ _ Hs), (Hf _ _ Hl). rewrite emplace_ok by exact Hnd. cbn [rbind app].
    destruct (header_all fields Hnd Hfd Hfi) as [m' [ctp' [E F]]]. rewrite E. cbn [rbind]. unfold verifyHeaderColumns.
    rewrite (F _ Hm). unfold tableError. cbn [rbind]. rewrite M, columnList_text. rewrite <- !app_assoc. reflexivity.
Qed.

Lemma says_wrong : forall p e w, openFileE reg name p cols delim = Says e w ->
  e = DomainError /\ exists r, header_wrong (map cname cols) delim p r /\ w = r ++ in_file name.
Proof.
  intros p e w H. destruct cols as [|c0 cols0] eqn:Ecols.
  { unfold openFileE, tableError in H. rewrite M in H. injection H as <- <-. split; [reflexivity|]. eexists. split; [apply hw_no_columns; reflexivity|reflexivity]. }
  rewrite <- Ecols in *. assert (Hne : map cname cols <> []) by (rewrite Ecols; discriminate).
  rewrite C in H by (rewrite Ecols; discriminate). destruct p as [| |s].
  - unfold tableError in H. rewrite M in H. injection H as <- <-. split; [reflexivity|]. eexists. split; [apply hw_nothing; exact Hne|reflexivity].
  - unfold tableError in H. rewrite M in H. injection H as <- <-. split; [reflexivity|]. eexists. split; [apply hw_not_file; exact Hne|reflexivity].
  - destruct (getlines 10 s) as [|line lines] eqn:Eg.
    { unfold tableError in H. rewrite M in H. injection H as <- <-. split; [reflexivity|]. eexists.
      rewrite (getlines_nothing s Eg). split; [apply hw_empty; exact Hne|reflexivity]. }
    symmetry in Eg. apply cut_getlines in Eg.
    destruct (emplaceColumnsE name cols []) as [cn|e1 w1| |] eqn:Ee; cbn [rbind] in H; try discriminate H.
    2:{ injection H as <- <-. apply emplace_says in Ee; [|constructor]. destruct Ee as [-> [a [c [b [E [Ha [Hc ->]]]]]]]. split; [reflexivity|].
        rewrite M. cbn [app] in *. exists (b_ "duplicate column " ++ quoted (cname c)). split; [|reflexivity].
        apply (hw_column_twice _ _ s (map cname a) (cname c) (map cname b)); [|rewrite E, map_app; reflexivity|exact Ha|exact Hc].
        intros ->. apply cut_getlines in Eg. discriminate Eg. }
    assert (Hnd : NoDup (map cname cols)).
    { destruct (nodup_names_dec (map cname cols)) as [X|X]; [exact X|]. exfalso.
      pose proof (emplace_plain name cols []) as P. rewrite Ee, (emplaceColumns_none cols []) in P; [discriminate P|constructor|exact X]. }
    rewrite emplace_ok in Ee by exact Hnd. injection Ee as <-. cbn [app] in H.
    pose proof (created_ok _ _ _ _ Hreg Hincl Hnd) as Hnum.
    destruct (processHeaderE _ _ _ _ _ _) as [[m ctp]|e1 w1| |] eqn:Eh; cbn [rbind] in H; try discriminate H.
    + destruct (header_got _ _ _ _ _ _ _ _ Hnd Hnum Eh) as [H1 [H2 [H3 H4]]].
      assert (Hm : missing (map cname cols) (getlines delim line) (sortNames (map cname m))).
      { split; [apply sortNames_sorted; exact H3|]. intro n. rewrite sortNames_in. apply H4. }
      assert (Hl : cut delim line (getlines delim line)) by (apply cut_getlines; reflexivity).
      unfold verifyHeaderColumns in H. destruct (sortNames (map cname m)) as [|x [|y l]] eqn:Es; cbn [rbind] in H; try discriminate H;
        unfold tableError in H; cbn [rbind] in H; rewrite M in H; apply says_inj in H; destruct H as [<- <-]; (split; [reflexivity|]).
      * eexists. split; [exact (hw_one_missing _ _ s line lines _ x Hnd Eg Hl H1 H2 Hm)|]. unfold quoted. rewrite <- !app_assoc. reflexivity.
      * eexists.
        split; [exact (hw_missing _ _ s line lines _ x y l Hnd Eg Hl H1 H2 Hm)|]. rewrite columnList_text, <- !app_assoc. reflexivity.
    + injection H as <- <-. apply header_says in Eh; [|exact Hnum]. destruct Eh as [-> [a [h [b [E [H1 [H2 [_ H3]]]]]]]]. split; [reflexivity|].
      assert (Hl : cut delim line (a ++ h :: b)) by (apply cut_getlines; symmetry; exact E).
      destruct H3 as [[[[]|H3] ->]|[_ [_ [H3 ->]]]]; rewrite M.
      * eexists. split; [exact (hw_header_twice _ _ s line lines a h b Hnd Eg Hl H1 H2 H3)|reflexivity].
      * eexists. split; [exact (hw_unknown _ _ s line lines a h b Hne Hnd Eg Hl H1 H2 H3)|reflexivity].
Qed.
Lemma open_ends : forall p, (exists f, openFileE reg name p cols delim = Got f) \/ exists e w, openFileE reg name p cols delim = Says e w.
Proof.
  intro p. destruct cols as [|c0 cols0] eqn:Ecols; [right; repeat eexists|]. rewrite <- Ecols in *.
  rewrite C by (rewrite Ecols; discriminate). destruct p as [| |s]; [right; repeat eexists|right; repeat eexists|].
  destruct (getlines 10 s) as [|line lines]; [right; repeat eexists|].
  pose proof (emplace_plain name cols []) as P. destruct (emplaceColumnsE name cols []) as [cn|e1 w1| |] eqn:Ee; cbn [rbind];
    try (destruct (emplaceColumns cols []); discriminate P); [|right; repeat eexists].
  assert (Hnd : NoDup (map cname cols)).
  { destruct (nodup_names_dec (map cname cols)) as [X|X]; [exact X|]. exfalso.
    rewrite (emplaceColumns_none cols []) in P; [discriminate P|constructor|exact X]. }
  rewrite emplace_ok in Ee by exact Hnd. injection Ee as <-. cbn [app].
  pose proof (created_ok _ _ _ _ Hreg Hincl Hnd) as Hnum.
  pose proof (header_plain name (getlines delim line) 0 [] cols (repeat None (List.length reg))) as Q.
  destruct (processHeader_no_ub (getlines delim line) 0 [] cols (repeat None (List.length reg)) Hnum) as [[x E]|E]; rewrite E in Q;
    destruct (processHeaderE _ _ _ _ _ _) as [[m ctp]|e1 w1| |]; cbn [plain] in Q; try discriminate Q; cbn [rbind]; try (right; repeat eexists; fail).
  unfold verifyHeaderColumns. destruct (sortNames (map cname m)) as [|a [|b l]]; cbn [rbind]; [left; eexists; reflexivity|right; repeat eexists|right; repeat eexists].
Qed.
End Header.
